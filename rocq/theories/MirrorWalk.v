(** Mirror images: random choices and the walks of water parcels (C72). *)
From Coq Require Import ZArith List Bool Reals Lra Lia.
From Flocq Require Import Core.
From Verif Require Import Base RLemmas Shared SharedSpec SharedProofs Params State Water VecLemmas
  WaterSpec WeightProofs WalkProofs RunProofs ChanceSpec ChanceProofs MirrorSpec MirrorProofs.
Import ListNotations.
Local Open Scope Z_scope.

(** ** Choices *)
Lemma pick_tape n v k : (forall m, (m < n)%nat -> (0 <= v m)%R) -> (k < n)%nat -> (0 < v k)%R ->
  exists u, (0 < u < 1)%R /\ forall rest, random_pick (A:=XA) (G:=tape) (map v (seq 0 n)) (u :: rest) = Ok (k, rest).
Proof.
  intros Hv Hk Hp.
  assert (H1 : (upto v (Datatypes.S k) <= upto v n)%R) by (apply (upto_mono v n); auto; lia).
  assert (H0 : (0 <= upto v k)%R).
  { change 0%R with (upto v 0). apply (upto_mono v n); auto; lia. }
  rewrite upto_S in H1. set (t := upto v n) in *.
  exists ((upto v k + v k / 2) / t)%R. assert (Ht : (0 < t)%R) by lra.
  assert (Hu : (0 < (upto v k + v k / 2) / t < 1)%R).
  { split; [apply Rdiv_lt_0_compat; lra|]. apply Rmult_lt_reg_r with t; auto. unfold Rdiv.
    rewrite Rmult_assoc, Rinv_l by lra. lra. }
  split; auto. intros rest.
  destruct (random_pick_exact (G:=tape) (map v (seq 0 n)) (((upto v k + v k / 2) / t)%R :: rest) k) as [_ Q]; auto.
  - apply Forall_forall. intros x Hx. apply in_map_iff in Hx as (m & <- & Hm). apply in_seq in Hm. apply Hv. lia.
  - rewrite map_length, seq_length. auto.
  - change RX with XA in Q. apply Q. rewrite !firstn_map_seq by lia. fold (upto v n) (upto v k) (upto v (Datatypes.S k)).
    cbn [draw tape fst]. fold t. rewrite upto_S.
    replace (t * ((upto v k + v k / 2) / t))%R with (upto v k + v k / 2)%R by (field; lra). lra.
Qed.

Lemma dirs_tape (v : vec R) k : (forall m, (m < 9)%nat -> (0 <= v m)%R) -> (k < 9)%nat -> (0 < v k)%R ->
  exists u, (0 < u < 1)%R /\ forall rest, random_pick (A:=XA) (G:=tape) (map v D9) (u :: rest) = Ok (k, rest).
Proof. intros. apply (pick_tape 9); auto. Qed.

(** Entry columns: any column of the inlet can be drawn. *)
Lemma starts_tape inlet l : Forall (fun c => In c inlet) l ->
  exists us, variates us /\ forall rest,
    start_loop (A:=XA) (G:=tape) inlet (norm_weights (A:=XA) (get_inlet_weights (A:=XA) inlet)) (List.length l) (us ++ rest)
    = Ok (l, rest).
Proof.
  induction 1 as [|c l Hc HF (us & Hus & E)].
  - exists []. split; [constructor|]. reflexivity.
  - apply In_nth_error in Hc as (k & Ek). rewrite norm_ones in *.
    assert (Hk : (k < List.length inlet)%nat) by (apply nth_error_Some; congruence).
    assert (Hn : (0 < INR (List.length inlet))%R) by (apply lt_0_INR; lia).
    assert (Hi : (0 < / INR (List.length inlet))%R) by (apply Rinv_0_lt_compat; auto).
    destruct (pick_tape (List.length inlet) (fun _ => / INR (List.length inlet) * 1)%R k) as (u & Hu & Eu);
      auto; try (intros; lra).
    exists (u :: us). split; [constructor; auto|]. intros rest. cbn [app List.length start_loop].
    rewrite Eu, Ek, E. reflexivity.
Qed.

Lemma entries_in {S} {G : Rng R S} inlet l s s' : entries inlet l s s' -> Forall (fun c => In c inlet) l.
Proof. induction 1; constructor; auto. eapply nth_error_In; eauto. Qed.

Lemma start_loop_length {S} {G : Rng R S} inlet nw n : forall s l s',
  start_loop (A:=XA) inlet nw n s = Ok (l, s') -> List.length l = n.
Proof.
  induction n as [|n IH]; intros s l s'; cbn [start_loop].
  - intros E. injection E as <- <-. reflexivity.
  - destruct (random_pick nw s) as [[k s1]|]; [|discriminate]. destruct (nth_error inlet k); [|discriminate].
    destruct (start_loop inlet nw n s1) as [[l1 s2]|] eqn:E; [|discriminate]. intros E1. injection E1 as <- <-.
    cbn [List.length]. f_equal. eauto.
Qed.

Lemma starts_mir {S} {G : Rng R S} W inlet n s l s' : uniform_range G -> (forall s, (0 < fst (draw s))%R) ->
  inlet <> [] ->
  get_start_indices (A:=XA) inlet (get_inlet_weights (A:=XA) inlet) n s = Ok (l, s') ->
  exists us, variates us /\ forall rest,
    get_start_indices (A:=XA) (G:=tape) (rev (map (flip W) inlet)) (get_inlet_weights (A:=XA) (rev (map (flip W) inlet))) n (us ++ rest)
    = Ok (map (flip W) l, rest).
Proof.
  intros HG Hu Hne E. unfold get_start_indices in *.
  assert (Hl : Forall (fun c => In c (rev (map (flip W) inlet))) (map (flip W) l)).
  { rewrite Forall_map. eapply Forall_impl; [|eapply (entries_in inlet l s s')].
    - cbn. intros c Hc. apply -> in_rev. apply in_map; auto.
    - eapply (starts_drawn HG Hu); eauto. }
  destruct (starts_tape _ _ Hl) as (us & Hus & Es). exists us. split; auto. intros rest.
  rewrite <- (Es rest). f_equal. rewrite map_length. symmetry. eapply start_loop_length; eauto.
Qed.

(** ** Flat indices *)
Section Ix.
  Context (P : params R).
  Notation L := (p_L P).
  Notation W := (p_W P).
  Context (HW1 : 1 <= W).

  (** The index of the mirrored cell; the row above the first counts too. *)
  Definition flip_ix (n : Z) : Z := n / W * W + flip W (n mod W).

  Lemma ix_form n : exists i j, 0 <= j < W /\ n = i * W + j.
  Proof.
    exists (n / W), (n mod W). pose proof (Z.div_mod n W ltac:(lia)). pose proof (Z.mod_pos_bound n W ltac:(lia)). lia.
  Qed.
  Lemma divmod i j : 0 <= j < W -> (i * W + j) / W = i /\ (i * W + j) mod W = j.
  Proof.
    intros H. split.
    - rewrite Z.div_add_l by lia. rewrite (Z.div_small j) by lia. lia.
    - rewrite Z.add_comm, Z_mod_plus_full. apply Z.mod_small. lia.
  Qed.
  Lemma flip_ix_cell i j : 0 <= j < W -> flip_ix (i * W + j) = i * W + flip W j.
  Proof. intros H. unfold flip_ix. destruct (divmod i j H) as [-> ->]. reflexivity. Qed.
  Lemma flip_ix_flip n : flip_ix (flip_ix n) = n.
  Proof.
    destruct (ix_form n) as (i & j & Hj & ->). rewrite flip_ix_cell by auto.
    rewrite flip_ix_cell by (unfold flip; lia). rewrite flip_flip. reflexivity.
  Qed.
  Lemma flip_ix_inj n m : flip_ix n = flip_ix m -> n = m.
  Proof. intros E. rewrite <- (flip_ix_flip n), E. apply flip_ix_flip. Qed.
  Lemma flip_ix_eqb n m : (flip_ix n =? flip_ix m) = (n =? m).
  Proof.
    destruct (Z.eqb_spec n m) as [->|H]; [apply Z.eqb_refl|]. apply Z.eqb_neq. intros E. apply H, flip_ix_inj; auto.
  Qed.
  Lemma flip_ix_row n : flip_ix n / W = n / W.
  Proof.
    destruct (ix_form n) as (i & j & Hj & ->). rewrite flip_ix_cell by auto.
    rewrite (proj1 (divmod i (flip W j) ltac:(unfold flip; lia))), (proj1 (divmod i j Hj)). reflexivity.
  Qed.
  Lemma flip_ix_col n : flip_ix n mod W = flip W (n mod W).
  Proof.
    destruct (ix_form n) as (i & j & Hj & ->). rewrite flip_ix_cell by auto.
    rewrite (proj2 (divmod i (flip W j) ltac:(unfold flip; lia))), (proj2 (divmod i j Hj)). reflexivity.
  Qed.
  (** Order against whole rows. *)
  Lemma flip_ix_ge a n : a * W <= n <-> a * W <= flip_ix n.
  Proof.
    destruct (ix_form n) as (i & j & Hj & ->). rewrite flip_ix_cell by auto. unfold flip.
    assert (Q : forall b, 0 <= b < W -> (a * W <= i * W + b <-> a <= i)).
    { intros b Hb. split; intros H; [|nia]. destruct (Z_lt_le_dec i a) as [Hl|]; auto. exfalso. nia. }
    rewrite (Q j Hj), (Q (W - 1 - j)) by lia. tauto.
  Qed.
  Lemma flip_ix_range n : 0 <= n < L * W -> 0 <= flip_ix n < L * W.
  Proof.
    intros H. pose proof (flip_ix_ge 0 n). pose proof (flip_ix_ge L n). lia.
  Qed.

  (** Corresponding entries of the index arrays: 0 stands for no position. *)
  Definition ixm (n n' : Z) : Prop := (n = 0 /\ n' = 0) \/ (n <> 0 /\ n <> W - 1 /\ n' = flip_ix n).

  Lemma ixm_0 n n' : ixm n n' -> (n' =? 0) = (n =? 0).
  Proof.
    intros [[-> ->]|(H0 & H1 & ->)]; auto. apply Z.eqb_neq in H0 as E. rewrite E. apply Z.eqb_neq.
    intros E'. apply H1. apply flip_ix_inj. rewrite E'.
    replace (W - 1) with (0 * W + (W - 1)) by lia. rewrite flip_ix_cell by lia. unfold flip. lia.
  Qed.
  Lemma ixm_pos n n' : ixm n n' -> (0 <? n') = (0 <? n).
  Proof.
    intros H. pose proof (ixm_0 n n' H) as E. destruct H as [[-> ->]|(H0 & H1 & ->)]; auto.
    pose proof (flip_ix_ge 0 n) as Q. apply Z.eqb_neq in H0. rewrite H0 in E. apply Z.eqb_neq in H0. apply Z.eqb_neq in E.
    destruct (Z.ltb_spec 0 (flip_ix n)), (Z.ltb_spec 0 n); auto; lia.
  Qed.
  Lemma ixm_eqb n n' m m' : ixm n n' -> ixm m m' -> (n' =? m') = (n =? m).
  Proof.
    intros [[-> ->]|(H0 & H1 & ->)] Hm.
    - rewrite (Z.eqb_sym 0 m'), (Z.eqb_sym 0 m). apply ixm_0; auto.
    - destruct Hm as [[-> ->]|(Hm0 & Hm1 & ->)]; [|apply flip_ix_eqb].
      apply ixm_0. right. auto.
  Qed.
  Lemma ixm_rows a n n' : 1 <= a -> ixm n n' -> (a * W - 1 <? n') = (a * W - 1 <? n).
  Proof.
    intros Ha [[-> ->]|(H0 & H1 & ->)]; auto. pose proof (flip_ix_ge a n).
    destruct (Z.ltb_spec (a * W - 1) (flip_ix n)), (Z.ltb_spec (a * W - 1) n); auto; lia.
  Qed.

  Lemma flat_ix_mir n m : flat_ix P n = Ok m -> flat_ix (mirror_params P) (flip_ix n) = Ok (flip_ix m).
  Proof.
    intros E. apply (flat_ix_inv P) in E as [-> Hr].
    assert (Q : wrap (L * W) (flip_ix n) = flip_ix (wrap (L * W) n)).
    { unfold wrap. pose proof (flip_ix_ge 0 n). destruct (Z.ltb_spec n 0), (Z.ltb_spec (flip_ix n) 0); try lia.
      destruct (ix_form n) as (i & j & Hj & ->). rewrite flip_ix_cell by auto.
      replace (i * W + j + L * W) with ((i + L) * W + j) by ring. rewrite flip_ix_cell by auto. ring. }
    unfold flat_ix. cbn [p_L p_W mirror_params]. rewrite Q. pose proof (flip_ix_range _ Hr).
    destruct (Z.leb_spec 0 (flip_ix (wrap (L * W) n))); [|lia].
    destruct (Z.ltb_spec (flip_ix (wrap (L * W) n)) (L * W)); [|lia]. reflexivity.
  Qed.
End Ix.

(** ** Walks *)
Lemma rint_opp x : ZnearestE (- x)%R = - ZnearestE x.
Proof.
  rewrite Znearest_opp. f_equal. unfold Znearest. destruct (Rcompare (x - IZR (Zfloor x)) (/ 2)); auto.
  replace (negb (negb (Z.even (- (Zfloor x + 1))))) with (negb (Z.even (Zfloor x))); auto.
  rewrite negb_involutive, Z.even_opp, Z.even_add. change (Z.even 1) with false. destruct (Z.even (Zfloor x)); reflexivity.
Qed.

Section Walk.
  Context {S : Type} {G : Rng R S} (P : params R).
  Notation L := (p_L P).
  Notation W := (p_W P).
  Notation P' := (mirror_params P).
  Context (ct ct' : grid Z).
  Context (WD : walk_domain L W (p_L0 P) ct (p_inlet P)).
  Context (Hct : mirror_image L W ct ct') (Hc0 : ct 0 0 = LAND) (Hc1 : ct 0 (W - 1) = LAND).
  Context (w w' : Z -> Z -> vec R).
  Context (HW : forall i j, inb L W i j -> ct i j <> LAND ->
     (forall k, (k < 9)%nat -> (0 <= w i j k)%R) /\
     (forall k, (k < 9)%nat -> at_nb L W ct i j k = LAND -> w i j k = 0%R)).
  Context (HG : uniform_range G).
  Context (HP : forall i j s, inb L W i j -> ct i j <> LAND ->
     (0 < last (cumsum (A:=XA) (map (w i j) D9)) 0 * fst (draw s))%R).
  Context (Hw' : forall i j, inb L W i j -> vmir (w i j) (w' i (flip W j))).
  Context (HL0 : 2 <= p_L0 P) (HCTR : 0 <= p_CTR P < W).
  Notation standing := (WaterSpec.standing P ct).
  Notation next_ok := (WaterSpec.next_ok P ct).
  Notation ixm := (ixm P).
  Notation flip_ix := (flip_ix P).

  Let HW1 : 1 <= W. Proof. pose proof (wd_W _ _ _ _ _ WD). lia. Qed.
  Let HL1 : 1 <= L. Proof. pose proof (wd_L0 _ _ _ _ _ WD). lia. Qed.

  (** Corresponding parcels. *)
  Record pmir (p p' : parcel) : Prop := {
    pm_cur : ixm (cur p) (cur p');
    pm_walk : Forall2 ixm (walk p) (walk p');
    pm_flag : fflag p' = fflag p;
    pm_dir : dir p' = flip_dir (dir p);
    pm_new : ixm (new p) (new p');
    pm_looped : looped p' = looped p
  }.

  Lemma cell_not_corner n i j : at_cell L W n i j -> ct i j <> LAND -> n <> 0 /\ n <> W - 1.
  Proof.
    intros [-> [Hi Hj]] Hl. split; intros E.
    - assert (i = 0 /\ j = 0) as [-> ->] by nia. auto.
    - assert (i = 0) by nia. subst i. assert (j = W - 1) by lia. subst j. auto.
  Qed.
  Lemma ixm_flip n : n <> 0 -> n <> W - 1 -> ixm n (flip_ix n).
  Proof. intros. right. auto. Qed.
  Lemma active_cell n i j n' : at_cell L W n i j -> ct i j <> LAND -> ixm n n' -> n' = i * W + flip W j.
  Proof.
    intros Hc Hl. destruct (cell_not_corner n i j Hc Hl) as [H0 H1].
    intros [[E _]|(_ & _ & ->)]; [contradiction|]. destruct Hc as [-> [Hi Hj]]. apply flip_ix_cell; auto.
  Qed.

  Lemma move_not_corner n d n1 : move P ct w n d n1 -> d <> 4%nat -> n1 <> 0 /\ n1 <> W - 1.
  Proof.
    intros H Hd. destruct H; try contradiction.
    - eapply cell_not_corner; eauto. split; auto.
    - lia.
  Qed.

  (** A direction for every parcel. *)
  Lemma choose_mir ps ps' : Forall2 pmir ps ps' -> Forall standing ps -> forall s qs s1,
    choose_next_directions (A:=XA) P w ps s = Ok (qs, s1) ->
    exists us qs', variates us /\
      (forall rest, choose_next_directions (A:=XA) (G:=tape) P' w' ps' (us ++ rest) = Ok (qs', rest)) /\
      Forall2 pmir qs qs'.
  Proof.
    induction 1 as [|p p' ps ps' Hp HF IH]; intros Hst s qs s1 E; cbn [choose_next_directions] in *.
    - injection E as <- <-. exists [], []. repeat split; constructor.
    - inversion Hst as [|? ? Hsp Hsps]; subst.
      apply rbind_Ok in E as ([d s2] & Ed & E). apply rbind_Ok in E as ([rest2 s3] & Er & E).
      injection E as <- <-. destruct (IH Hsps _ _ _ Er) as (us & qs' & Hus & Eq & HFq).
      rewrite (ixm_0 P HW1 _ _ (pm_cur _ _ Hp)).
      destruct (Z.eqb_spec (cur p) 0) as [E0|E0].
      + injection Ed as <- <-. exists us, (mkParcel (cur p') (walk p') (fflag p') 4 (new p') (looped p') :: qs').
        split; auto. split; [intros rest; cbn [rbind]; rewrite Eq; reflexivity|].
        constructor; auto. constructor; cbn [cur walk fflag dir new looped]; try apply Hp. reflexivity.
      + destruct Hsp as [Hsp|(i & j & Hc & Hl & He)]; [contradiction|].
        pose proof (active_cell _ _ _ _ Hc Hl (pm_cur _ _ Hp)) as Ec.
        rewrite flat_ix_ok in Ed by (eapply at_cell_range; eauto). cbn [rbind] in Ed.
        destruct (at_cell_div _ _ _ _ _ Hc) as [Ei Ej]. rewrite Ei, Ej in Ed.
        pose proof (proj2 Hc) as Hin.
        destruct (pick_dir (fun x => x) P ct w HW HG HP i j s Hin Hl) as (k & s2' & Ek & Hk & Hpos).
        rewrite Ek in Ed. injection Ed as <- <-.
        destruct (dirs_tape (w' i (flip W j)) (flip_dir k)) as (u & Hu & Eu).
        { intros m Hm. rewrite <- (fd_fd m) by auto. rewrite Hw' by (auto using fd_lt).
          apply (HW i j Hin Hl). apply fd_lt; auto. }
        { apply fd_lt; auto. }
        { rewrite Hw'; auto. }
        exists (u :: us), (mkParcel (cur p') (walk p') (fflag p') (flip_dir k) (new p') (looped p') :: qs').
        split; [constructor; auto|]. split.
        * intros rest. pose proof (flip_inb _ _ _ _ Hin) as Hin'.
          assert (Hc' : at_cell L W (cur p') i (flip W j)) by (split; auto).
          pose proof (at_cell_range _ _ _ _ _ Hc') as Hr'. destruct (at_cell_div _ _ _ _ _ Hc') as [Ei' Ej'].
          rewrite (flat_ix_ok P' (cur p')) by exact Hr'. cbn [rbind p_W mirror_params app]. rewrite Ei', Ej', Eu. cbn [rbind]. rewrite Eq. reflexivity.
        * constructor; auto. constructor; cbn [cur walk fflag dir new looped]; try apply Hp. reflexivity.
  Qed.

  (** What the choice leaves of a parcel. *)
  Definition chosen_ok (p : parcel) : Prop :=
    standing p /\ (dir p < 9)%nat /\ (cur p = 0 -> dir p = 4%nat) /\
    move P ct w (cur p) (dir p) (calculate_new_ind P (cur p) (dir p)).

  Lemma choose_facts ps s qs s1 : Forall standing ps ->
    choose_next_directions (A:=XA) P w ps s = Ok (qs, s1) -> Forall chosen_ok qs.
  Proof.
    intros Hst E. destruct (choose_spec (fun x => x) P ct w HW HG HP ps Hst s) as (qs' & s' & E' & HF).
    rewrite E in E'. injection E' as <- <-. clear E. revert Hst.
    induction HF as [|p q ps qs ((E1 & E2 & E3) & Hd & H0 & H1) HF IH]; intros Hst; constructor.
    - inversion Hst; subst. assert (Hq : standing q) by (unfold WaterSpec.standing in *; rewrite E1; auto).
      rewrite <- E1 in *. split; auto. split; auto. split; auto.
      apply (move_spec P ct WD w HW q (dir q)); auto.
    - apply IH. inversion Hst; auto.
  Qed.

  Lemma calc_mir q q' : pmir q q' -> chosen_ok q ->
    ixm (calculate_new_ind P (cur q) (dir q)) (calculate_new_ind P' (cur q') (dir q')).
  Proof.
    intros Hp (Hst & Hd & H0 & Hm). pose proof (move_not_corner _ _ _ Hm) as Hn.
    unfold calculate_new_ind in *. rewrite (pm_dir _ _ Hp), fd_ctr by auto.
    destruct (Nat.eqb_spec (dir q) 4) as [E4|E4]; [left; auto|]. specialize (Hn E4) as [N0 N1].
    destruct Hst as [Hst|(i & j & Hc & Hl & He)]; [apply H0 in Hst; contradiction|].
    right. split; auto. split; auto. rewrite (active_cell _ _ _ _ Hc Hl (pm_cur _ _ Hp)).
    pose proof (wd_interior _ _ _ _ _ WD i j (proj2 Hc) Hl He) as [Hi Hj]. destruct Hc as [-> Hin].
    unfold ravel_walk_flat. cbn [p_W mirror_params]. rewrite fd_row, fd_col by auto.
    pose proof (nb_col_bounds j (dir q) Hd) as Hb. rewrite <- nb_walk_col in Hb by auto.
    replace (i * W + j + (jwalk_flat (dir q) * W + iwalk_flat (dir q)))
      with ((i + jwalk_flat (dir q)) * W + (j + iwalk_flat (dir q))) by ring.
    rewrite flip_ix_cell by lia. unfold flip. ring.
  Qed.

  Lemma calc_all qs qs' : Forall2 pmir qs qs' -> Forall chosen_ok qs ->
    Forall2 pmir (calculate_new_inds P qs) (calculate_new_inds P' qs').
  Proof.
    induction 1 as [|q q' qs qs' Hq HF IH]; intros Hf; cbn [calculate_new_inds map]; constructor.
    - inversion Hf; subst. pose proof (calc_mir q q' Hq H1). destruct Hq; constructor; cbn; auto.
    - apply IH. inversion Hf; auto.
  Qed.

  (** *** Accumulated fields *)
  Definition qmir (sg : R) (q q' : Z -> R) : Prop :=
    forall n, 0 <= n < L * W -> q' (flip_ix n) = (sg * q n)%R.
  (** Parcels that stepped, with corresponding positions. *)
  Definition ixs (ix : parcel -> Z) (p p' : parcel) : Prop :=
    (dir p < 9)%nat /\ dir p' = flip_dir (dir p) /\ (dir p <> 4%nat -> ix p' = flip_ix (ix p)).

  Lemma steps_mir k : (k < 9)%nat ->
    fst (fst (fst (get_steps (A:=XA) (flip_dir k)))) = fst (fst (fst (get_steps (A:=XA) k))) /\
    snd (get_steps (A:=XA) (flip_dir k)) = snd (get_steps (A:=XA) k).
  Proof.
    intros Hk. unfold get_steps. cbn [fst snd]. rewrite fd_row, fd_col by auto.
    replace (- iwalk_flat k * - iwalk_flat k) with (iwalk_flat k * iwalk_flat k) by ring. auto.
  Qed.

  Lemma fset_mir sg q q' n x x' : qmir sg q q' -> x' = (sg * x)%R -> qmir sg (fset q n x) (fset q' (flip_ix n) x').
  Proof.
    intros Hq Hx m Hm. unfold fset. rewrite flip_ix_eqb by auto. destruct (m =? n); auto.
  Qed.

  Lemma dirQ_mir sg ix stp ps ps' : (forall k, (k < 9)%nat -> IZR (stp (flip_dir k)) = (sg * IZR (stp k))%R) ->
    Forall2 (ixs ix) ps ps' -> forall q q' q1, qmir sg q q' ->
    update_dirQfield (A:=XA) P q ix stp ps = Ok q1 ->
    exists q1', update_dirQfield (A:=XA) P' q' ix stp ps' = Ok q1' /\ qmir sg q1 q1'.
  Proof.
    intros Hs. induction 1 as [|p p' ps ps' (Hd & Ed & Hi) HF IH]; intros q q' q1 Hq E; cbn [update_dirQfield] in *.
    - injection E as <-. eauto.
    - rewrite Ed. destruct (steps_mir (dir p) Hd) as [S1 S2]. pose proof (astep_spec (fun x => x) (dir p) Hd) as Ha.
      destruct (get_steps (A:=XA) (dir p)) as [[[ds a1] a2] b] eqn:Eg.
      destruct (get_steps (A:=XA) (flip_dir (dir p))) as [[[ds' a1'] a2'] b'] eqn:Eg'. cbn [fst snd] in *. subst ds' b'.
      destruct b; [|eauto]. assert (H4 : dir p <> 4%nat) by (destruct (Nat.eqb_spec (dir p) 4); auto; discriminate).
      apply rbind_Ok in E as (n & En & E). rewrite (Hi H4), (flat_ix_mir P HW1 _ _ En). cbn [rbind].
      apply (flat_ix_inv P) in En as [_ Hr].
      eapply IH; [|exact E]. apply fset_mir; auto. rewrite (Hq n Hr). ra. rewrite Hs by auto. unfold Rdiv. ring.
  Qed.

  Lemma absQ_mir ix ps ps' : Forall2 (ixs ix) ps ps' -> forall q q' q1, qmir 1 q q' ->
    update_absQfield (A:=XA) P q ix ps = Ok q1 ->
    exists q1', update_absQfield (A:=XA) P' q' ix ps' = Ok q1' /\ qmir 1 q1 q1'.
  Proof.
    induction 1 as [|p p' ps ps' (Hd & Ed & Hi) HF IH]; intros q q' q1 Hq E; cbn [update_absQfield] in *.
    - injection E as <-. eauto.
    - rewrite Ed. destruct (steps_mir (dir p) Hd) as [S1 S2]. pose proof (astep_spec (fun x => x) (dir p) Hd) as Ha.
      destruct (get_steps (A:=XA) (dir p)) as [[[ds a1] a2] b] eqn:Eg.
      destruct (get_steps (A:=XA) (flip_dir (dir p))) as [[[ds' a1'] a2'] b'] eqn:Eg'. cbn [fst snd] in *. subst ds' b'.
      destruct b; [|eauto]. assert (H4 : dir p <> 4%nat) by (destruct (Nat.eqb_spec (dir p) 4); auto; discriminate).
      apply rbind_Ok in E as (n & En & E). rewrite (Hi H4), (flat_ix_mir P HW1 _ _ En). cbn [rbind].
      apply (flat_ix_inv P) in En as [_ Hr].
      eapply IH; [|exact E]. apply fset_mir; auto. rewrite (Hq n Hr). unfold half_flux. cbn [p_Qp_water p_dx mirror_params]. ra. ring.
  Qed.

  Definition q3mir (q q' : qfields (F:=R)) : Prop :=
    qmir 1 (fst (fst q)) (fst (fst q')) /\ qmir (-1) (snd (fst q)) (snd (fst q')) /\ qmir 1 (snd q) (snd q').

  Lemma update_Q_mir ix ps ps' q q' q1 : Forall2 (ixs ix) ps ps' -> q3mir q q' ->
    update_Q (A:=XA) P q ix ps = Ok q1 ->
    exists q1', update_Q (A:=XA) P' q' ix ps' = Ok q1' /\ q3mir q1 q1'.
  Proof.
    intros HF (Hx & Hy & Ha). destruct q as [[a b] c], q' as [[a' b'] c']. cbn [fst snd] in *. unfold update_Q.
    intros E. apply rbind_Ok in E as (a1 & E1 & E). apply rbind_Ok in E as (b1 & E2 & E). apply rbind_Ok in E as (c1 & E3 & E).
    rewrite !fmemo_id in E. injection E as <-.
    destruct (dirQ_mir 1 ix jwalk_flat ps ps') with (q := a) (q' := a') (q1 := a1) as (a1' & -> & Qa); auto.
    { intros k Hk. rewrite fd_row by auto. ring. }
    destruct (dirQ_mir (-1) ix iwalk_flat ps ps') with (q := b) (q' := b') (q1 := b1) as (b1' & -> & Qb); auto.
    { intros k Hk. rewrite fd_col by auto. rewrite opp_IZR. ring. }
    destruct (absQ_mir ix ps ps' HF c c' c1) as (c1' & -> & Qc); auto.
    cbn [rbind]. rewrite !fmemo_id. eexists. split; [reflexivity|]. split; auto.
  Qed.

  (** *** Loops *)
  Lemma relocate_mir stale stale' i j px py : 2 <= i -> 0 <= j < W ->
    relocate (A:=XA) P stale i j = Ok (px, py) ->
    relocate (A:=XA) P' stale' i (flip W j) = Ok (px, flip W py).
  Proof.
    intros Hi Hj. unfold relocate. cbn [p_CTR p_L p_W p_L0 mirror_params]. ra.
    replace (flip W j - flip W (p_CTR P)) with (- (j - p_CTR P)) by (unfold flip; ring).
    rewrite Z.mul_opp_opp. set (n := (i - 1) * (i - 1) + (j - p_CTR P) * (j - p_CTR P)).
    assert (Hn : 1 <= n) by (unfold n; pose proof (Z.square_nonneg (j - p_CTR P)); assert (0 < (i - 1) * (i - 1)) by nia; lia).
    assert (Hs : (0 < sqrt (IZR n))%R) by (apply sqrt_lt_R0; apply (IZR_lt 0); lia).
    assert (Hw : Reqb (sqrt (IZR n)) 0 = false) by (apply Reqb_false; lra).
    rewrite Hw. cbn [negb]. intros E. injection E as <- <-. f_equal. f_equal.
    rewrite opp_IZR. replace (- IZR (j - p_CTR P) / sqrt (IZR n) * 5)%R with (- (IZR (j - p_CTR P) / sqrt (IZR n) * 5))%R by (unfold Rdiv; ring).
    rewrite rint_opp. pose proof (wd_W _ _ _ _ _ WD). unfold flip. lia.
  Qed.

  Lemma ixm_filter l l' : Forall2 ixm l l' ->
    Forall2 ixm (filter (fun n => (0 <? n) && (p_L0 P * W - 1 <? n)) l)
                (filter (fun n => (0 <? n) && (p_L0 P * W - 1 <? n)) l').
  Proof.
    induction 1 as [|n n' l l' Hn HF IH]; cbn [filter]; [constructor|].
    rewrite (ixm_pos P HW1 _ _ Hn), (ixm_rows P HW1 (p_L0 P) _ _ ltac:(lia) Hn).
    destruct ((0 <? n) && (p_L0 P * W - 1 <? n)); [constructor|]; auto.
  Qed.
  Lemma ixm_existsb x x' l l' : ixm x x' -> Forall2 ixm l l' ->
    existsb (fun n => n =? x') l' = existsb (fun n => n =? x) l.
  Proof.
    intros Hx. induction 1 as [|n n' l l' Hn HF IH]; cbn [existsb]; auto.
    rewrite (ixm_eqb P HW1 _ _ _ _ Hn Hx), IH. reflexivity.
  Qed.

  Context (stage stage' : grid R) (H_SL : R) (Hstage : mirror_image L W stage stage').

  Lemma check_loops_mir ps ps' : Forall2 pmir ps ps' -> Forall (fun p => next_ok (new p)) ps ->
    forall stale stale' qs, check_loops_from (A:=XA) P stage H_SL stale ps = Ok qs ->
    exists qs', check_loops_from (A:=XA) P' stage' H_SL stale' ps' = Ok qs' /\ Forall2 pmir qs qs'.
  Proof.
    induction 1 as [|p p' ps ps' Hp HF IH]; intros Hn stale stale' qs E; cbn [check_loops_from] in *.
    - injection E as <-. exists []. auto.
    - inversion Hn as [|? ? Hnp Hnps]; subst. cbn [p_L p_W p_L0 mirror_params].
      rewrite (ixm_pos P HW1 _ _ (pm_new _ _ Hp)).
      rewrite (ixm_existsb _ _ _ _ (pm_new _ _ Hp) (ixm_filter _ _ (pm_walk _ _ Hp))).
      destruct ((0 <? new p) && existsb (fun n => n =? new p) _) eqn:Er.
      + apply (revisits_b P) in Er. destruct Er as (Hpos & Hrow & _).
        destruct Hnp as [Hnp|[(i & j & Hc & Hl)|Hnp]]; [lia| |lia].
        pose proof (active_cell _ _ _ _ Hc Hl (pm_new _ _ Hp)) as En.
        pose proof (proj2 Hc) as Hin. pose proof (flip_inb _ _ _ _ Hin) as Hin'.
        rewrite En, (unravel_ok L W i (flip W j)) by auto. rewrite (proj1 Hc), (unravel_ok L W i j) in E by auto. cbn [rbind] in *.
        assert (Hi : 2 <= i) by (pose proof (proj1 Hc); destruct Hin; nia).
        apply rbind_Ok in E as ([px py] & El & E). apply rbind_Ok in E as (nind & Ev & E).
        rewrite (relocate_mir stale stale' i j px py Hi (proj2 Hin) El). cbn [rbind].
        assert (Hne : (i, j) <> (1, p_CTR P)) by (intros Q; inversion Q; lia).
        destruct (relocate_ok (fun x => x) P ct WD stale i j ltac:(lia) Hne) as (px1 & py1 & El1 & Hpx & Hpy).
        rewrite El in El1. injection El1 as <- <-.
        pose proof (wd_L0 _ _ _ _ _ WD) as HLL.
        rewrite (ravel_ok L W) in Ev by (split; lia). injection Ev as <-.
        rewrite (ravel_ok L W) by (split; unfold flip; lia). cbn [rbind].
        rewrite (flip_inbb L W i j). rewrite (proj2 (inbb_spec L W i j) Hin) in *.
        apply rbind_Ok in E as (rest & Ers & E). injection E as <-.
        destruct (IH Hnps (Some (px, py)) (Some (px, flip W py)) rest Ers) as (rest' & Ers' & HFr).
        rewrite Ers'. cbn [rbind]. eexists. split; [reflexivity|]. constructor; auto.
        rewrite (Hstage i j Hin).
        constructor; cbn [cur walk fflag dir new looped]; try apply Hp; auto.
        right. rewrite flip_ix_cell by lia. split; [nia|]. split; [nia|]. reflexivity.
      + apply rbind_Ok in E as (rest & Ers & E). injection E as <-.
        destruct (IH Hnps stale stale' rest Ers) as (rest' & Ers' & HFr).
        rewrite Ers'. cbn [rbind]. eexists. split; [reflexivity|]. constructor; auto.
        constructor; cbn [cur walk fflag dir new looped]; try apply Hp; auto.
  Qed.

  Lemma check_mir step ps ps' qs : Forall2 pmir ps ps' -> Forall (fun p => next_ok (new p)) ps ->
    check_for_loops (A:=XA) P stage H_SL step ps = Ok qs ->
    exists qs', check_for_loops (A:=XA) P' stage' H_SL step ps' = Ok qs' /\ Forall2 pmir qs qs'.
  Proof.
    intros HF Hn. unfold check_for_loops. cbn [p_L0 mirror_params]. destruct (p_L0 P <? step).
    - apply check_loops_mir; auto.
    - intros E. injection E as <-. eexists. split; [reflexivity|]. clear Hn.
      induction HF as [|p p' ps ps' Hp HF IH]; cbn [map]; constructor; auto.
      constructor; cbn [cur walk fflag dir new looped]; try apply Hp; auto.
  Qed.

  (** *** Recording *)
  Lemma boundary_mir n n' b : ixm n n' -> at_boundary P ct n = Ok b -> at_boundary P' ct' n' = Ok b.
  Proof.
    intros Hn E. unfold at_boundary in *. apply rbind_Ok in E as (m & Em & E). injection E as <-.
    destruct Hn as [[-> ->]|(H0 & H1 & ->)].
    - rewrite (flat_ix_ok P) in Em by nia. injection Em as <-.
      rewrite (flat_ix_ok P') by (cbn [p_L p_W mirror_params]; nia). cbn [rbind p_W mirror_params].
      rewrite Z.div_0_l, Z.mod_0_l by lia. rewrite Hc0.
      replace (ct' 0 0) with (ct 0 (W - 1)); [rewrite Hc1; reflexivity|].
      rewrite <- (Hct 0 (W - 1)) by (split; lia). f_equal. unfold flip. lia.
    - rewrite (flat_ix_mir P HW1 _ _ Em). cbn [rbind p_W mirror_params]. apply (flat_ix_inv P) in Em as [_ Hr].
      rewrite flip_ix_row, flip_ix_col by auto.
      rewrite (Hct (m / W) (m mod W)); [reflexivity|]. apply (at_cell_exists L W m Hr HW1).
  Qed.

  Lemma record_mir p p' r b : pmir p p' -> record_step P ct p = Ok (r, b) ->
    exists r', record_step P' ct' p' = Ok (r', b) /\ pmir r r'.
  Proof.
    intros Hp E. unfold record_step in *. apply rbind_Ok in E as (b' & Eb & E). injection E as <- <-.
    rewrite (boundary_mir _ _ _ (pm_new _ _ Hp) Eb). cbn [rbind].
    rewrite (pm_looped _ _ Hp). eexists. split; [reflexivity|].
    assert (H0 : ixm 0 0) by (left; auto).
    assert (Hr : ixm (if looped p && b' then 0 else new p) (if looped p && b' then 0 else new p'))
      by (destruct (looped p && b'); [auto|apply Hp]).
    constructor; cbn [cur walk fflag dir new looped]; try apply Hp; auto.
    - destruct b'; auto.
    - constructor; auto. apply Hp.
    - rewrite (pm_flag _ _ Hp). reflexivity.
  Qed.

  Lemma records_mir ps ps' : Forall2 pmir ps ps' -> forall pbs, mapM (record_step P ct) ps = Ok pbs ->
    exists pbs', mapM (record_step P' ct') ps' = Ok pbs' /\
      Forall2 (fun pb pb' => pmir (fst pb) (fst pb') /\ snd pb' = snd pb) pbs pbs'.
  Proof.
    induction 1 as [|p p' ps ps' Hp HF IH]; intros pbs E; cbn [mapM] in *.
    - injection E as <-. exists []. auto.
    - apply rbind_Ok in E as ([r b] & Er & E). apply rbind_Ok in E as (rs & Es & E). injection E as <-.
      destruct (record_mir _ _ _ _ Hp Er) as (r' & -> & Hr). destruct (IH _ Es) as (rs' & -> & Hrs).
      cbn [rbind]. eexists. split; [reflexivity|]. constructor; auto.
  Qed.

  (** *** A step of all parcels *)
  Lemma ixs_new ps ps' : Forall2 pmir ps ps' ->
    Forall (fun p => (dir p < 9)%nat /\ (dir p <> 4%nat -> new p <> 0)) ps -> Forall2 (ixs new) ps ps'.
  Proof.
    induction 1 as [|p p' ps ps' Hp HF IH]; intros H; constructor.
    - inversion H as [|? ? [Hd Hn] Hps]; subst. split; auto. split; [apply Hp|]. intros H4.
      destruct (pm_new _ _ Hp) as [[E _]|(_ & _ & E)]; auto. apply Hn in H4. contradiction.
    - apply IH. inversion H; auto.
  Qed.
  Lemma ixs_cur ps ps' : Forall2 pmir ps ps' ->
    Forall (fun p => (dir p < 9)%nat /\ (dir p <> 4%nat -> cur p <> 0)) ps -> Forall2 (ixs cur) ps ps'.
  Proof.
    induction 1 as [|p p' ps ps' Hp HF IH]; intros H; constructor.
    - inversion H as [|? ? [Hd Hn] Hps]; subst. split; auto. split; [apply Hp|]. intros H4.
      destruct (pm_cur _ _ Hp) as [[E _]|(_ & _ & E)]; auto. apply Hn in H4. contradiction.
    - apply IH. inversion H; auto.
  Qed.

  Lemma filter_mir pbs pbs' : Forall2 (fun pb pb' => pmir (fst pb) (fst pb') /\ snd pb' = snd pb) pbs pbs' ->
    Forall2 pmir (map fst (filter snd pbs)) (map fst (filter snd pbs')).
  Proof.
    induction 1 as [|pb pb' pbs pbs' [Hp Hb] HF IH]; cbn [filter map]; [constructor|].
    rewrite Hb. destruct (snd pb); cbn [map]; [constructor|]; auto.
  Qed.

  Lemma water_step_mir step ps ps' q q' width s ps1 q1 width1 s1 :
    Forall2 pmir ps ps' -> Forall standing ps -> q3mir q q' ->
    water_step (A:=XA) P w stage H_SL ct step (ps, q, width, s) = Ok (ps1, q1, width1, s1) ->
    exists us ps1' q1', variates us /\ Forall2 pmir ps1 ps1' /\ q3mir q1 q1' /\
      forall rest, water_step (A:=XA) (G:=tape) P' w' stage' H_SL ct' step (ps', q', width, us ++ rest) = Ok (ps1', q1', width1, rest).
  Proof.
    intros HF Hst Hq E.
    assert (Hwd : step < check_size_of_indices_matrix P width step).
    { unfold water_step in E. apply rbind_Ok in E as ([a b] & _ & E). apply rbind_Ok in E as (? & _ & E).
      apply rbind_Ok in E as (? & _ & E). apply rbind_Ok in E as (? & _ & E). apply rbind_Ok in E as (? & _ & E).
      destruct (Z.ltb_spec step (check_size_of_indices_matrix P width step)); [auto|discriminate]. }
    unfold water_step in E. apply rbind_Ok in E as ([qs s2] & Ec & E).
    destruct (choose_mir _ _ HF Hst _ _ _ Ec) as (us & qs' & Hus & Ec' & HFq).
    pose proof (choose_facts _ _ _ _ Hst Ec) as Hfacts.
    pose proof (calc_all _ _ HFq Hfacts) as HF2.
    set (ps2 := calculate_new_inds P qs) in *. set (ps2' := calculate_new_inds P' qs') in *.
    assert (Hm : Forall (fun p => (dir p < 9)%nat /\ move P ct w (cur p) (dir p) (new p) /\ (cur p = 0 -> dir p = 4%nat)) ps2).
    { unfold ps2, calculate_new_inds. rewrite Forall_map. eapply Forall_impl; [|exact Hfacts].
      cbn. intros p (_ & Hd & H0 & Hm). auto. }
    assert (Hn2 : Forall (fun p => next_ok (new p)) ps2).
    { eapply Forall_impl; [|exact Hm]. cbn. intros p (_ & H & _). eapply move_next_ok; eauto. }
    apply rbind_Ok in E as (qa & Ea & E). apply rbind_Ok in E as (qb & Eb & E).
    apply rbind_Ok in E as (ps3 & El & E). apply rbind_Ok in E as (pbs & Er & E).
    destruct (update_Q_mir cur ps2 ps2' q q' qa) as (qa' & Ea' & Hqa); auto.
    { apply ixs_cur; auto. eapply Forall_impl; [|exact Hm]. cbn. intros p (Hd & _ & H0). split; auto. }
    destruct (update_Q_mir new ps2 ps2' qa qa' qb) as (qb' & Eb' & Hqb); auto.
    { apply ixs_new; auto. eapply Forall_impl; [|exact Hm]. cbn. intros p (Hd & H & _). split; auto.
      intros H4. apply (move_not_corner _ _ _ H H4). }
    destruct (check_mir step ps2 ps2' ps3 HF2 Hn2 El) as (ps3' & El' & HF3).
    destruct (records_mir ps3 ps3' HF3 pbs Er) as (pbs' & Er' & HFp).
    destruct (Z.ltb_spec step (check_size_of_indices_matrix P width step)) as [_|]; [|lia].
    apply rbind_Ok in E as (qc & Ef & E). injection E as <- <- <- <-.
    assert (H3 : Forall (fun p => (dir p < 9)%nat /\ (dir p <> 4%nat -> new p <> 0)) ps3).
    { destruct (check_for_loops_ok (fun x => x) P ct WD stage H_SL step ps2) as (ps3x & Ex & HF3x).
      { rewrite Forall_forall in *. intros p Hp. split; auto. intros (_ & Hr & _).
        assert (0 <= p_CTR P < W) by auto. nia. }
      rewrite El in Ex. injection Ex as <-. clear - HF3x Hm WD HL0 HCTR Hc0 Hc1 Hn2 HL1 HW1.
      induction HF3x as [|x y l l' ((_ & _ & _ & Ed) & Hl) HF IH]; constructor.
      - inversion Hm as [|? ? (Hd & Hmv & _) _]; subst. inversion Hn2; subst. rewrite Ed. split; auto. intros H4.
        destruct (move_not_corner _ _ _ Hmv H4) as [N0 _].
        destruct Hl as [(_ & -> & _)|(_ & Hl)]; auto. apply (loop_next_ok (fun x => x) P ct WD) in Hl as [_ [Hl| ->]]; auto. lia.
      - apply IH; [inversion Hm|inversion Hn2]; auto. }
    destruct (update_Q_mir new (map fst (filter snd pbs)) (map fst (filter snd pbs')) qb qb' qc) as (qc' & Ef' & Hqc); auto.
    { apply ixs_new; [apply filter_mir; auto|].
      assert (H4 : Forall (fun pb => (dir (fst pb) < 9)%nat /\ (dir (fst pb) <> 4%nat -> new (fst pb) <> 0)) pbs).
      { apply mapM_inv in Er. clear - Er H3. induction Er as [|p [r b] l l' E HF IH]; constructor.
        - apply record_inv in E as (E1 & E2 & _). cbn [fst]. rewrite E1, E2. inversion H3; auto.
        - apply IH. inversion H3; auto. }
      rewrite Forall_map. rewrite Forall_forall in *. intros pb Hpb. apply filter_In in Hpb as [Hpb _]. auto. }
    exists us, (map fst pbs'), qc'. split; auto. split.
    { clear - HFp. induction HFp as [|? ? ? ? [? ?]]; cbn [map]; constructor; auto. }
    split; auto. intros rest. unfold water_step. rewrite Ec'. cbn [rbind]. fold ps2'. rewrite Ea'. cbn [rbind].
    rewrite Eb'. cbn [rbind]. rewrite El'. cbn [rbind]. rewrite Er'. cbn [rbind].
    change (check_size_of_indices_matrix P' width step) with (check_size_of_indices_matrix P width step).
    destruct (Z.ltb_spec step (check_size_of_indices_matrix P width step)) as [_|]; [|lia].
    rewrite Ef'. reflexivity.
  Qed.
End Walk.
