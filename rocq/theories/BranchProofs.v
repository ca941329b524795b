(** Proofs about interrupted, resumed and branched runs. *)
From Coq Require Import ZArith List Bool String Lia.
From Verif Require Import Base Dict Config Params State Shared Water Sed RunProofs Iter IterSpec FrameProofs Inputs Init
  InitSpec InitProofs Session SessionSpec ResumeProofs SessionProofs AttrProofs Switches SwitchSpec SwitchProofs
  Records RecordsSpec RecordsProofs Branch BranchSpec.
Import ListNotations.
Local Open Scope Z_scope.

Lemma okay_inj {T} (a b : T) : Ok a = Ok b -> a = b.
Proof. intros H. injection H as ->. reflexivity. Qed.

(** ** Lists *)
Section Lists.
  Context {T : Type}.
  Implicit Types l o f : list T.
  Lemma app_split : forall (o1 : list T) c o2 l1 l2, o1 ++ c :: o2 = l1 ++ l2 ->
    (exists m, l1 = o1 ++ c :: m /\ o2 = m ++ l2) \/ (exists m, o1 = l1 ++ m /\ l2 = m ++ c :: o2).
  Proof.
    induction o1 as [|y o1 IH]; intros c o2 [|z l1] l2 E; cbn in E.
    - right. exists []. auto.
    - injection E as <- ->. left. exists l1. auto.
    - right. exists (y :: o1). auto.
    - injection E as <- E. apply IH in E as [(m & -> & ->)|(m & -> & ->)]; [left|right]; exists m; auto.
  Qed.
  Lemma prefix_cases : forall f u a v, f ++ u = a ++ v -> (List.length a <= List.length f)%nat -> exists m, f = a ++ m.
  Proof.
    induction f as [|y f IH]; intros u [|z a] v E H; cbn in *; try lia; eauto.
    injection E as <- E. destruct (IH _ _ _ E) as [m ->]; [lia|]. exists m. reflexivity.
  Qed.
  (** Overwriting a part of a prefix with what the whole has there. *)
  Lemma overwrite f u p e v : f ++ u = p ++ e ++ v -> (List.length p <= List.length f)%nat ->
    firstn (List.length p) f = p /\
    exists more, f ++ u = (p ++ e ++ skipn (List.length p + List.length e) f) ++ more.
  Proof.
    intros E H. destruct (prefix_cases f u p (e ++ v) E H) as [m Hm]. split.
    { rewrite Hm, firstn_app, firstn_all, Nat.sub_diag. cbn. apply app_nil_r. }
    destruct (Nat.le_gt_cases (List.length (p ++ e)) (List.length f)) as [K|K].
    - rewrite app_assoc in E. destruct (prefix_cases f u (p ++ e) v E K) as [m' Hm']. exists u.
      rewrite <- app_length, app_assoc. rewrite Hm' at 2. rewrite skipn_app, skipn_all, Nat.sub_diag. cbn.
      rewrite Hm'. reflexivity.
    - exists v. rewrite skipn_all2 by (rewrite app_length in K; lia). rewrite app_nil_r, E, app_assoc. reflexivity.
  Qed.
End Lists.

Section Branches.
  Context {F : Type} {A : Arith F} {S N : Type} {G : Rng F S} {GN : NpRng N} (store : F -> F).

  (** ** Checkpoints in what is written *)
  Lemma last_saved_cases (o : list (output F S)) : forall old,
    last_saved o old = old \/ exists o1 ck o2, o = o1 ++ Checkpoint ck :: o2 /\ last_saved o old = Some ck.
  Proof.
    induction o as [|[k t st|ck] o IH]; intros old; cbn [last_saved]; [auto| |].
    - destruct (IH old) as [->|(o1 & c & o2 & -> & H)]; [auto|]. right. exists (Record_ k t st :: o1), c, o2. auto.
    - right. destruct (IH (Some ck)) as [->|(o1 & c & o2 & -> & H)]; [exists [], ck, o; auto|].
      exists (Checkpoint ck :: o1), c, o2. auto.
  Qed.
  Lemma write_last (P : params F) (a b : state F S) o o1 ck o2 : write_output P a = (b, o) -> o = o1 ++ Checkpoint ck :: o2 ->
    o2 = [] /\ ck = save_the_checkpoint b.
  Proof.
    unfold write_output, output_data, output_checkpoint. intros E ->.
    destruct (ext_geb (s_save_time_since_data a) (p_save_dt P)); cbn -[ext_geb] in E;
      destruct (_ && _) in E; injection E as <- E.
    all: destruct o1 as [|y [|z [|? ?]]]; cbn in E; try discriminate; injection E; intros; subst; auto.
    all: try discriminate.
  Qed.
  Lemma updates_split (P : params F) n : forall (a b : state F S) o o1 ck o2, updates P n a = Ok (b, o) ->
    o = o1 ++ Checkpoint ck :: o2 ->
    exists j x, (1 <= j <= n)%nat /\ updates P j a = Ok (x, o1 ++ [Checkpoint ck]) /\ ck = save_the_checkpoint x.
  Proof.
    induction n as [|n IH]; intros a b o o1 ck o2 E ->.
    - apply okay_inj in E. apply (f_equal snd) in E. cbn in E. destruct o1; discriminate.
    - cbn [updates] in E. apply rbind_Ok in E as ([x ox] & E1 & E). apply rbind_Ok in E as ([y oy] & E2 & E).
      apply okay_inj in E. pose proof (f_equal snd E) as E3. cbn in E3. symmetry in E3.
      apply app_split in E3 as [(m & -> & ->)|(m & -> & ->)].
      + pose proof E1 as E4. apply update_since in E4 as (z & _ & _ & _ & E4).
        destruct (write_last _ _ _ _ o1 ck m E4 eq_refl) as [-> Hc]. exists 1%nat, x. split; [lia|]. split; [|exact Hc].
        cbn [updates]. rewrite E1. cbn [rbind]. rewrite app_nil_r. reflexivity.
      + destruct (IH _ _ _ m ck o2 E2 eq_refl) as (j & z & Hj & Ez & Hc). exists (Datatypes.S j), z.
        split; [lia|]. split; [|exact Hc]. cbn [updates]. rewrite E1. cbn [rbind]. rewrite Ez. cbn [rbind]. rewrite app_assoc. reflexivity.
  Qed.

  (** ** Resuming from a checkpoint with other counters *)
  Definition recount (k : Z) (t : F) (x : state F S) : state F S := set_save_iter k (set_save_time_since_data (Fin t) x).
  Lemma resume_point (c : inputs F) nb np j (m : model (F:=F) S) np' x ox k t nb' np2 missing :
    construct (G:=G) (GN:=GN) c nb np = Ok (m, np') -> run_model (G:=G) (GN:=GN) c nb np j = Ok (x, ox) ->
    exists r np3, resume (GN:=GN) c (save_the_checkpoint (recount k t x)) missing nb' np2 = Ok (r, np3) /\
      m_P r = m_P m /\ m_finalized r = false /\ related (m_P m) x (m_st r) /\
      s_save_time_since_data (m_st r) = Fin (fz (ftrunc t)) /\ s_save_iter (m_st r) = (if missing then 0 else k).
  Proof.
    intros E1 E2. destruct (run_reached c nb np j m np' x ox E1 E2) as [HD _].
    destruct (construct_other c nb np m np' E1) as [_ HC].
    destruct (HC nb' np2) as (m2 & np3 & s & E3 & HP & Hst & Hfin).
    pose proof (construct_fresh c nb np m np' E1) as (_ & Hck & _ & _ & _ & Hw & _).
    destruct (load_checkpoint (save_the_checkpoint (recount k t x)) missing (set_rng s (m_st m))) as [st'|] eqn:El; [|discriminate].
    exists (mkModel (m_in m2) (m_P m2) st' (m_finalized m2)), np3.
    split. { unfold resume. rewrite E3. cbn [rbind]. rewrite Hst, El. reflexivity. }
    cbn [m_P m_st m_finalized]. split; [exact HP|]. split; [exact Hfin|]. split.
    - assert (HD' : descends (m_P m) (m_st m) (recount k t x)) by (destruct HD as [H1 H2 H3]; constructor; assumption).
      pose proof (load_related (m_P m) (m_st m) (recount k t x) s missing st' HD' Hw El) as [K1 K2].
      split; [|exact K2]. rewrite <- K1. reflexivity.
    - unfold load_checkpoint in El. cbn [c_save_time_since_data save_the_checkpoint recount] in El.
      destruct missing; apply okay_inj in El; subst st'; split; reflexivity.
  Qed.

  Lemma related_save (P : params F) (a b : state F S) : related P a b ->
    save_the_checkpoint b = save_the_checkpoint (set_save_iter (s_save_iter b) (set_save_time_since_data (s_save_time_since_data b) a)).
  Proof.
    intros [H _]. unfold save_the_checkpoint. cbn.
    pose proof (f_equal s_time H) as H1. pose proof (f_equal s_H_SL H) as H2. pose proof (f_equal s_time_iter H) as H3.
    pose proof (f_equal s_eta H) as H4. pose proof (f_equal s_depth H) as H5. pose proof (f_equal s_stage H) as H6.
    pose proof (f_equal s_uw H) as H7. pose proof (f_equal s_ux H) as H8. pose proof (f_equal s_uy H) as H9.
    pose proof (f_equal s_qw H) as H10. pose proof (f_equal s_qx H) as H11. pose proof (f_equal s_qy H) as H12.
    pose proof (f_equal s_sand_frac H) as H13. pose proof (f_equal s_active_layer H) as H14. pose proof (f_equal s_rng H) as H15.
    clear H. cbn in *. rewrite H1, H2, H3, H4, H5, H6, H7, H8, H9, H10, H11, H12, H13, H14, H15. reflexivity.
  Qed.
  Lemma related_same (P : params F) (a b : state F S) : related P a b -> same_point a b.
  Proof.
    intros H. pose proof (updates_alike P 0 0 a b H) as K. cbn in K. tauto.
  Qed.

  Context (c : inputs F) (nb : S) (np : N).
  Notation run := (run_model (G:=G) (GN:=GN) c nb np).

  (** ** The states that are reached, whatever the counters *)
  Definition on_run (ck : checkpoint F S) : Prop :=
    exists x ox k t, run (Z.to_nat (c_time_iter ck)) = Ok (x, ox) /\ ck = save_the_checkpoint (recount k t x).
  Lemma on_run_intro j x ox (y : state F S) (P : params F) t : run j = Ok (x, ox) -> related P x y ->
    s_save_time_since_data y = Fin t -> on_run (save_the_checkpoint y).
  Proof.
    intros E H Ht. exists x, ox, (s_save_iter y), t. cbn [c_time_iter save_the_checkpoint].
    assert (Hi : s_time_iter y = Z.of_nat j).
    { destruct H as [H _]. apply (f_equal s_time_iter) in H. cbn in H. rewrite <- H. eapply run_iter; eauto. }
    rewrite Hi, Nat2Z.id. split; [exact E|]. rewrite (related_save P x y H), Ht. reflexivity.
  Qed.
  Lemma resumed_on ck missing nb' np2 : on_run ck ->
    exists r np3 j x ox, resume (GN:=GN) c ck missing nb' np2 = Ok (r, np3) /\ m_finalized r = false /\
      run j = Ok (x, ox) /\ Z.of_nat j = c_time_iter ck /\ same_point x (m_st r) /\
      (forall n, alike (fun a b => same_point (fst a) (fst b)) (run (j + n)) (updates (m_P r) n (m_st r))) /\
      (forall n st o ck', updates (m_P r) n (m_st r) = Ok (st, o) -> In (Checkpoint ck') o -> on_run ck').
  Proof.
    intros (x & ox & k & t & E & ->). cbn [c_time_iter save_the_checkpoint] in E.
    change (s_time_iter (recount k t x)) with (s_time_iter x) in E.
    pose proof E as Ei. apply run_model_inv in Ei as (m & np' & st1 & o0 & o1 & Ec & _ & _ & _).
    destruct (resume_point c nb np _ m np' x ox k t nb' np2 missing Ec E) as (r & np3 & Er & HP & Hf & HR & Hs & _).
    exists r, np3, (Z.to_nat (s_time_iter x)), x, ox. split; [exact Er|]. split; [exact Hf|]. split; [exact E|].
    split. { cbn. rewrite <- (run_iter _ _ _ _ _ _ E). reflexivity. }
    split; [eapply related_same; exact HR|]. rewrite HP.
    assert (K : forall n, alike (fun a b => same_point (fst a) (fst b) /\ related (m_P m) (fst a) (fst b))
       (run (Z.to_nat (s_time_iter x) + n)) (updates (m_P m) n (m_st r))).
    { intros n. rewrite (run_model_app c nb np _ n m np' x ox Ec E).
      pose proof (updates_alike (m_P m) 0 n _ _ HR) as K.
      destruct (updates (m_P m) n x) as [[a oa]|], (updates (m_P m) n (m_st r)) as [[b ob]|]; cbn in K |- *; tauto. }
    split. { intros n. specialize (K n). eapply alike_mono; [|exact K]. cbn. tauto. }
    intros n st o ck' Eu Hin. destruct (updates_checkpoint_inv _ _ _ _ _ _ Eu Hin) as (i & y & oy & Hi & Ey & ->).
    specialize (K i). rewrite Ey in K. destruct (run (Z.to_nat (s_time_iter x) + i)) as [[a oa]|] eqn:Ea; [|destruct K].
    cbn in K. destruct K as [_ K].
    destruct (updates_finite _ _ _ _ _ Ey ltac:(eexists; exact Hs)) as [t' Ht'].
    eapply on_run_intro; eauto.
  Qed.
  Lemma new_on m o0 np' n st o ck : fnan (i_save_dt c) = false ->
    new_model (G:=G) (GN:=GN) c nb np = Ok (m, o0, np') -> updates (m_P m) n (m_st m) = Ok (st, o) ->
    In (Checkpoint ck) (o0 ++ o) -> on_run ck.
  Proof.
    intros Hn E0 Eu Hin.
    assert (E : run n = Ok (st, o0 ++ o)) by (unfold run_model; rewrite E0; cbn [rbind]; rewrite Eu; reflexivity).
    destruct (run_checkpoint _ _ _ _ _ _ _ E Hin) as (x & ox & Hb & Ex & ->).
    pose proof Ex as Ei. apply run_model_inv in Ei as (m1 & np1 & st1 & o1 & o2 & Ec & _ & _ & _).
    destruct (proj2 (run_reached c nb np _ m1 np1 x ox Ec Ex) Hn) as [t Ht].
    exists x, ox, (s_save_iter x), t. split; [exact Ex|]. unfold recount, save_the_checkpoint. cbn. rewrite Ht. reflexivity.
  Qed.
  Lemma saved_on (o : list (output F S)) old ck : last_saved o old = Some ck -> old = Some ck \/ In (Checkpoint ck) o.
  Proof.
    intros E. destruct (last_saved_cases o old) as [H|(o1 & ck' & o2 & -> & H)]; rewrite E in H.
    - left. congruence.
    - right. injection H as <-. apply in_or_app. right. left. reflexivity.
  Qed.
  Lemma history_on w d : fnan (i_save_dt c) = false -> history (GN:=GN) store w c nb np d ->
    forall s ck, saved (d s) = Some ck -> on_run ck.
  Proof.
    intros Hn H. induction H as [d H|own n d st lost d' H IH Hu Hs|own nb' np2 n d st lost d' H IH Hs
      |own src nb' np2 n d st lost d' H IH Hu Hs]; intros s ck Hck.
    - rewrite (proj2 (H s)) in Hck. discriminate.
    - inversion Hs as [m o0 np3 st' o reached lost' p E1 E2 E3 E4]; subst. unfold put in Hck.
      destruct (String.eqb s own); [|eauto]. unfold written in E4. apply rbind_Ok in E4 as (f & _ & E4).
      injection E4 as <-. cbn [saved] in Hck. apply saved_on in Hck as [Hck|Hck]; [eauto|].
      unfold start, resume_checkpoint in E1. destruct (out_file (d own)); [discriminate|].
      eapply new_on; [exact Hn|exact E1|exact E2|]. rewrite E3. apply in_or_app. auto.
    - inversion Hs as [m o0 np3 st' o reached lost' p E1 E2 E3 E4]; subst. unfold put in Hck.
      destruct (String.eqb s own); [|eauto]. unfold written in E4. apply rbind_Ok in E4 as (f & _ & E4).
      injection E4 as <-. cbn [saved] in Hck. apply saved_on in Hck as [Hck|Hck]; [eauto|].
      unfold start, resume_checkpoint in E1. destruct (saved (d own)) as [ck0|] eqn:E0; [|discriminate].
      apply rbind_Ok in E1 as ([r np4] & E1 & E5). apply okay_inj in E5. pose proof (f_equal (fun z => fst (fst z)) E5) as E6.
      pose proof (f_equal (fun z => snd (fst z)) E5) as E7. cbn in E6, E7. subst r o0.
      edestruct (resumed_on ck0) as (r & np5 & j & x & ox & Er & _ & _ & _ & _ & _ & K); [eauto|].
      rewrite E1 in Er. apply okay_inj in Er. apply (f_equal fst) in Er. cbn in Er. subst r.
      eapply K; [exact E2|]. cbn in E3. rewrite E3. apply in_or_app. auto.
    - inversion Hs as [m o0 np3 st' o reached lost' p E1 E2 E3 E4]; subst. unfold put in Hck.
      destruct (String.eqb s own); [|eauto]. unfold written in E4. apply rbind_Ok in E4 as (f & _ & E4).
      injection E4 as <-. cbn [saved] in Hck. apply saved_on in Hck as [Hck|Hck]; [eauto|].
      unfold start, resume_checkpoint in E1. destruct (saved (d src)) as [ck0|] eqn:E0; [|discriminate].
      apply rbind_Ok in E1 as ([r np4] & E1 & E5). apply okay_inj in E5. pose proof (f_equal (fun z => fst (fst z)) E5) as E6.
      pose proof (f_equal (fun z => snd (fst z)) E5) as E7. cbn in E6, E7. subst r o0.
      edestruct (resumed_on ck0) as (r & np5 & j & x & ox & Er & _ & _ & _ & _ & _ & K); [eauto|].
      rewrite E1 in Er. apply okay_inj in Er. apply (f_equal fst) in Er. cbn in Er. subst r.
      eapply K; [exact E2|]. cbn in E3. rewrite E3. apply in_or_app. auto.
  Qed.

  (** ** What the folders hold *)
  Context (sel : selection) (on : switch -> bool) (md ts : bool) (HS : selects sel on) (HM : metas_on on md).
  Context (Hn : fnan (i_save_dt c) = false).
  Notation wr := (open_writer sel md ts).
  Notation file_of := (run_file store (G:=G) (GN:=GN) wr c nb np).
  Notation holds := (holds_from (G:=G) (GN:=GN) store wr c nb np).
  Notation complete := (complete_to (G:=G) (GN:=GN) store wr c nb np).
  Notation point := (shows_point (G:=G) (GN:=GN) c nb np).

  (** Of two runs, the file of one begins that of the other. *)
  Lemma two_runs T1 T2 w1 w2 : file_of T1 = Ok w1 -> file_of T2 = Ok w2 ->
    exists T whole t1 t2, file_of T = Ok whole /\ whole = w1 ++ t1 /\ whole = w2 ++ t2.
  Proof.
    intros E1 E2.
    assert (K : forall T w', file_of T = Ok w' -> exists st o, run T = Ok (st, o)).
    { intros T w' E. unfold run_file in E. apply rbind_Ok in E as ([[m o0] np1] & E0 & E). apply rbind_Ok in E as ([st o] & Eu & _).
      exists st, (o0 ++ o). unfold run_model. rewrite E0. cbn [rbind]. rewrite Eu. reflexivity. }
    destruct (Nat.le_ge_cases T1 T2) as [H|H].
    - destruct (K _ _ E2) as (st & o & E). replace T2 with (T1 + (T2 - T1))%nat in E by lia.
      destruct (file_grows store sel on md ts HS HM c nb np T1 (T2 - T1) st o E Hn) as (f & g & G1 & G2).
      replace (T1 + (T2 - T1))%nat with T2 in G2 by lia. rewrite G1 in E1. injection E1 as ->.
      exists T2, w2, g, []. split; [exact E2|]. rewrite app_nil_r. split; [congruence|reflexivity].
    - destruct (K _ _ E1) as (st & o & E). replace T1 with (T2 + (T1 - T2))%nat in E by lia.
      destruct (file_grows store sel on md ts HS HM c nb np T2 (T1 - T2) st o E Hn) as (f & g & G1 & G2).
      replace (T2 + (T1 - T2))%nat with T1 in G2 by lia. rewrite G1 in E2. injection E2 as ->.
      exists T1, w1, [], g. split; [exact E1|]. rewrite app_nil_r. split; [reflexivity|congruence].
  Qed.

  Lemma same_ents d inp P (l l' : list (Z * F * state F S)) : Forall2 (same_record d) l l' ->
    map (ent store inp P (var_list sel)) l = map (ent store inp P (var_list sel)) l'.
  Proof.
    intros H. induction H as [|p q l l' H _ IH]; cbn [map]; [reflexivity|]. rewrite IH. f_equal. eapply same_record_ent; eauto.
  Qed.
  Lemma skip_len {X} (l l' : list X) n : List.length l = n -> skipn n (l ++ l') = l'.
  Proof. intros <-. rewrite skipn_app, skipn_all, Nat.sub_diag. reflexivity. Qed.
  Lemma zseq_len k n : List.length (zseq k n) = n.
  Proof. revert k. induction n; intros; cbn; auto. Qed.

  (** Going on from a point of the run at which [k] entries of the file count. *)
  Lemma file_after T a pre oa b (k : nat) (oo reached lost : list (output F S)) f inp P :
    run T = Ok (a, pre ++ oa) -> List.length (shown_records pre) = (b + k)%nat ->
    Forall2 (same_record (Z.of_nat b)) (shown_records oa) (shown_records oo) -> oo = reached ++ lost ->
    holds b f -> (k <= List.length f)%nat ->
    p_f_bedload P = i_f_bedload c -> i_C0_percent inp = i_C0_percent c -> p_u0 P = i_u0 c ->
    exists f', write_all store wr inp P reached f = Ok f' /\ holds b f' /\
      (List.length f <= List.length f')%nat /\ (k + List.length (shown_records reached) <= List.length f')%nat /\
      (lost = [] -> complete b T f').
  Proof.
    intros E Hk HF Ho (T0 & w0 & more & E0 & Hb & Hm) Hl D1 D2 D3.
    destruct (run_shown _ _ _ _ _ _ E Hn) as (J1 & _).
    destruct (run_file_eq store sel on md ts HS HM _ _ _ _ _ _ E Hn) as (inp1 & P1 & C1 & C2 & C3 & Ef).
    assert (HE : forall l : list (Z * F * state F S), map (ent store inp1 P1 (var_list sel)) l = map (ent store inp P (var_list sel)) l).
    { intros l. apply map_ext. intros z. apply ent_constants with (c := c); auto. }
    rewrite HE, shown_app, !map_app in Ef. rewrite shown_app, map_app, app_length, zseq_app in J1.
    apply (f_equal (skipn (List.length (shown_records pre)))) in J1.
    rewrite !skip_len in J1 by (rewrite ?map_length, ?zseq_len; reflexivity). rewrite Z.add_0_l, Hk, Nat2Z.inj_add, Z.add_comm in J1.
    pose proof (resumed_indices _ _ _ HF _ J1) as J2. subst oo.
    rewrite shown_app, map_app, app_length, zseq_app in J2.
    apply (f_equal (firstn (List.length (shown_records reached)))) in J2.
    assert (FK : forall {X} (l l' : list X) n, List.length l = n -> firstn n (l ++ l') = l).
    { intros X l l' j <-. rewrite firstn_app, firstn_all, Nat.sub_diag. cbn. apply app_nil_r. }
    rewrite !FK in J2 by (rewrite ?map_length, ?zseq_len; reflexivity).
    rewrite (write_all_at store sel on md ts HS HM inp P reached f k Hl J2). eexists. split; [reflexivity|].
    rewrite (same_ents _ inp P _ _ HF), shown_app, !map_app in Ef.
    set (ep := map Some (map (ent store inp P (var_list sel)) (shown_records pre))) in *.
    set (er := map Some (map (ent store inp P (var_list sel)) (shown_records reached))) in *.
    set (el := map Some (map (ent store inp P (var_list sel)) (shown_records lost))) in *.
    assert (Lp : List.length ep = (b + k)%nat) by (unfold ep; rewrite !map_length; exact Hk).
    assert (Lr : List.length er = List.length (shown_records reached)) by (unfold er; rewrite !map_length; reflexivity).
    destruct (two_runs _ _ _ _ E0 Ef) as (T' & whole & t1 & t2 & Ew & W1 & W2).
    assert (Lk : List.length (skipn b ep) = k) by (rewrite skipn_length; lia).
    assert (Q : f ++ (more ++ t1) = skipn b ep ++ er ++ (el ++ t2)).
    { rewrite app_assoc, <- Hm.
      assert (Q1 : skipn b whole = skipn b w0 ++ t1).
      { rewrite W1, skipn_app. replace (b - List.length w0)%nat with O by lia. reflexivity. }
      rewrite <- Q1, W2, <- !app_assoc, skipn_app. replace (b - List.length ep)%nat with O by lia. reflexivity. }
    rewrite <- Lk in Hl. destruct (overwrite _ _ _ _ _ Q Hl) as [O1 [more' O2]]. rewrite Lk, Lr in O2. rewrite Lk in O1, Hl.
    rewrite O1. split; [|split; [|split]].
    - exists T', whole, more'. split; [exact Ew|]. split; [rewrite W1, app_length; lia|].
      rewrite <- O2, app_assoc, <- Hm, W1, skipn_app. replace (b - List.length w0)%nat with O by lia. reflexivity.
    - rewrite !app_length, Lk, Lr, skipn_length. lia.
    - rewrite !app_length, Lk, Lr. lia.
    - intros ->. exists (ep ++ er ++ el), (skipn (k + List.length (shown_records reached)) f). split; [exact Ef|].
      unfold el. cbn [shown_records map]. rewrite app_nil_r, skipn_app. replace (b - List.length ep)%nat with O by lia.
      cbn [skipn]. rewrite <- app_assoc. reflexivity.
  Qed.

  (** The checkpoint that stays. *)
  Lemma saved_after b (k : nat) (oo reached lost : list (output F S)) (f f' : ncfile F) old :
    oo = reached ++ lost -> (List.length f <= List.length f')%nat -> (k + List.length (shown_records reached) <= List.length f')%nat ->
    (forall ck, old = Some ck -> point b ck /\ c_save_iter ck <= Z.of_nat (List.length f)) ->
    (forall o1 ck o2, oo = o1 ++ Checkpoint ck :: o2 -> point b ck /\ c_save_iter ck = Z.of_nat (k + List.length (shown_records o1))) ->
    forall ck, last_saved reached old = Some ck -> point b ck /\ c_save_iter ck <= Z.of_nat (List.length f').
  Proof.
    intros Ho L1 L2 H1 H2 ck E. destruct (last_saved_cases reached old) as [K|(o1 & ck' & o2 & -> & K)]; rewrite E in K.
    - destruct (H1 ck (eq_sym K)). split; [assumption|lia].
    - injection K as <-. rewrite <- app_assoc in Ho. cbn in Ho. destruct (H2 _ _ _ Ho) as [K1 K2]. split; [exact K1|].
      rewrite shown_app, app_length in L2. lia.
  Qed.

  Lemma point_intro b j x ox (y : state F S) (P : params F) : run j = Ok (x, ox) -> related P x y ->
    in_phase (Z.of_nat b) x y -> 0 <= s_save_iter y -> point b (save_the_checkpoint y).
  Proof.
    intros E H [P1 P2] Hp. exists x, ox. cbn [c_time_iter save_the_checkpoint c_save_iter].
    assert (Hi : s_time_iter y = Z.of_nat j).
    { destruct H as [H _]. apply (f_equal s_time_iter) in H. cbn in H. rewrite <- H. eapply run_iter; eauto. }
    rewrite Hi, Nat2Z.id. split; [exact E|]. split; [|split; [lia|exact Hp]].
    rewrite (related_save P x y H), <- P1, P2. unfold save_the_checkpoint. reflexivity.
  Qed.

  Lemma begun own n d st lost d' : unused (d own) ->
    session (GN:=GN) store wr c own (VBool false) nb np n d st lost d' ->
    exists o, run n = Ok (st, o) /\ keeps (G:=G) (GN:=GN) store wr c nb np 0 (d' own) /\
      (lost = [] -> exists f, out_file (d' own) = Some f /\ complete 0 n f).
  Proof.
    intros [Hu1 Hu2] Hs. inversion Hs as [m o0 np3 st' o reached lost' p E1 E2 E3 E4]; subst.
    unfold start, resume_checkpoint in E1. rewrite Hu1 in E1.
    assert (E : run n = Ok (st, o0 ++ o)) by (unfold run_model; rewrite E1; cbn [rbind]; rewrite E2; reflexivity).
    exists (o0 ++ o). split; [exact E|]. unfold keeps, put. rewrite String.eqb_refl.
    unfold written in E4. rewrite Hu1, Hu2 in E4.
    assert (HR : Forall2 (same_record 0) (shown_records (o0 ++ o)) (shown_records (o0 ++ o))).
    { induction (shown_records (o0 ++ o)) as [|r l IH]; constructor; auto. repeat split; auto. lia. }
    assert (HD : exists w0, file_of n = Ok w0).
    { destruct (run_file_eq store sel on md ts HS HM _ _ _ _ _ _ E Hn) as (? & ? & _ & _ & _ & ?). eauto. }
    destruct HD as [w0 HD].
    unfold new_model in E1. apply rbind_Ok in E1 as ([m1 np4] & Ec & E1).
    destruct (write_output (m_P m1) (m_st m1)) as [st1 o1] eqn:Ew. apply okay_inj in E1.
    pose proof (f_equal (fun z => fst (fst z)) E1) as Em. pose proof (f_equal (fun z => snd (fst z)) E1) as Eo.
    cbn in Em, Eo. subst o1. clear E1.
    destruct (construct_constants _ _ _ _ _ Ec) as (C1 & C2 & C3).
    assert (MP : m_P m = m_P m1 /\ m_in m = m_in m1 /\ m_st m = st1) by (rewrite <- Em; auto). destruct MP as (MP & MI & MS).
    rewrite MP in *. rewrite MI, MS in *.
    destruct (file_after n st [] (o0 ++ o) 0 0 (o0 ++ o) reached lost [] (m_in m1) (m_P m1) E eq_refl HR E3
      ltac:(exists n, w0, w0; cbn; split; [exact HD|split; [lia|reflexivity]]) ltac:(cbn; lia) C1 C2 C3)
      as (f' & W1 & W2 & W3 & W4 & W5).
    rewrite W1 in E4. cbn [rbind] in E4. apply okay_inj in E4. subst p. cbn [out_file saved]. split; [|intros L; eauto].
    exists f'. split; [reflexivity|]. split; [exact W2|].
    apply (saved_after 0 0 (o0 ++ o) reached lost [] f' None E3 W3 W4); [discriminate|].
    assert (HP : forall j x o1 ck, run j = Ok (x, o1 ++ [Checkpoint ck]) -> ck = save_the_checkpoint x ->
       point 0 ck /\ c_save_iter ck = Z.of_nat (0 + List.length (shown_records o1))).
    { intros j x oj ck Ej ->. destruct (run_shown _ _ _ _ _ _ Ej Hn) as (_ & L & _).
      rewrite shown_app in L. cbn in L. rewrite app_nil_r in L. split; [|exact L].
      apply (point_intro 0 j x _ x (m_P m1) Ej); [|split; [reflexivity|cbn; lia]|rewrite L; lia].
      split; [reflexivity|left; reflexivity]. }
    intros oa ck ob Eq. apply eq_sym, app_split in Eq as [(l & -> & ->)|(l & -> & ->)].
    - destruct (write_last _ _ _ _ oa ck l Ew eq_refl) as [-> Hc]. apply (HP O st1 oa ck); [|exact Hc].
      unfold run_model, new_model. rewrite Ec. cbn [rbind]. rewrite Ew. cbn [rbind m_P m_st updates]. rewrite app_nil_r. reflexivity.
    - destruct (updates_split _ _ _ _ _ l ck ob E2 eq_refl) as (j & x & Hj & Ej & Hc). apply (HP j x (o0 ++ l) ck); [|exact Hc].
      unfold run_model, new_model. rewrite Ec. cbn [rbind]. rewrite Ew. cbn [rbind m_P m_st]. rewrite Ej. cbn [rbind].
      rewrite app_assoc. reflexivity.
  Qed.

  (** Going on from a checkpoint of a folder that keeps the run from [b] on,
      into a folder that keeps it from [b'] on. *)
  Lemma gone_on (Hw : whole_seconds (G:=G) (GN:=GN) c nb np) b ck (missing : bool) nb' np2 r np3 n st o reached lost (b' : nat) f old :
    point b ck -> resume (GN:=GN) c ck missing nb' np2 = Ok (r, np3) -> updates (m_P r) n (m_st r) = Ok (st, o) ->
    o = reached ++ lost ->
    (missing = false -> b' = b /\ c_save_iter ck <= Z.of_nat (List.length f)) ->
    (missing = true -> Z.of_nat b' = Z.of_nat b + c_save_iter ck) ->
    holds b' f -> (forall ck', old = Some ck' -> point b' ck' /\ c_save_iter ck' <= Z.of_nat (List.length f)) ->
    exists a oa f', run (Z.to_nat (c_time_iter ck) + n) = Ok (a, oa) /\ same_point a st /\
      s_time_iter st = c_time_iter ck + Z.of_nat n /\
      write_all store wr (m_in r) (m_P r) reached f = Ok f' /\
      keeps (G:=G) (GN:=GN) store wr c nb np b' (mkPlace (Some f') (last_saved reached old)) /\
      (lost = [] -> complete b' (Z.to_nat (c_time_iter ck) + n) f').
  Proof.
    intros (x & ox & E & Eck & Hi0 & Hk0) Er Eu Ho Hmf Hmt Hh Hold.
    set (j := Z.to_nat (c_time_iter ck)) in *.
    pose proof E as Ei. apply run_model_inv in Ei as (m & np' & st1 & o0 & o1 & Ec & _ & _ & _).
    destruct (proj2 (run_reached c nb np _ m np' x ox Ec E) Hn) as [t Ht].
    pose proof (Hw _ _ _ _ E Ht) as Htr.
    assert (Eck' : ck = save_the_checkpoint (recount (s_save_iter x - Z.of_nat b) t x)).
    { rewrite Eck. unfold save_the_checkpoint, recount. cbn. rewrite Ht. reflexivity. }
    assert (Hc : c_save_iter ck = s_save_iter x - Z.of_nat b) by (rewrite Eck; reflexivity).
    destruct (resume_point c nb np _ m np' x ox (s_save_iter x - Z.of_nat b) t nb' np2 missing Ec E)
      as (r0 & np4 & Er0 & HP & Hf & HR & Hs & Hsi).
    rewrite <- Eck', Er in Er0. apply okay_inj in Er0. apply (f_equal fst) in Er0. cbn in Er0. subst r0.
    pose proof Er as Er1. apply resume_inv in Er1 as (m0 & E0 & R1 & R2 & _). destruct (construct_constants _ _ _ _ _ E0) as (D1 & D2 & D3).
    rewrite <- R1 in D1, D3. rewrite <- R2 in D2.
    assert (Hph : in_phase (Z.of_nat b') x (m_st r)).
    { split; [rewrite Hs, Ht, Htr; reflexivity|]. rewrite Hsi. destruct missing.
      - specialize (Hmt eq_refl). lia.
      - destruct (Hmf eq_refl) as [-> _]. reflexivity. }
    assert (Hp0 : 0 <= s_save_iter (m_st r)) by (rewrite Hsi; destruct missing; lia).
    set (k := Z.to_nat (s_save_iter (m_st r))).
    destruct (run_shown _ _ _ _ _ _ E Hn) as (_ & Lx & _).
    assert (Lk : List.length (shown_records ox) = (b' + k)%nat) by (destruct Hph as [_ Hph]; unfold k; lia).
    assert (Hkf : (k <= List.length f)%nat).
    { unfold k. rewrite Hsi. destruct missing; [cbn; lia|]. destruct (Hmf eq_refl). lia. }
    assert (K : forall i y oy, updates (m_P r) i (m_st r) = Ok (y, oy) ->
       exists a oa, run (j + i) = Ok (a, ox ++ oa) /\ same_point a y /\ related (m_P m) a y /\ in_phase (Z.of_nat b') a y /\
         Forall2 (same_record (Z.of_nat b')) (shown_records oa) (shown_records oy)).
    { intros i y oy Ey. rewrite HP in Ey. pose proof (updates_alike (m_P m) (Z.of_nat b') i _ _ HR) as K. rewrite Ey in K.
      destruct (updates (m_P m) i x) as [[a oa]|] eqn:Ea; [|destruct K]. cbn in K.
      exists a, oa. rewrite (run_model_app c nb np _ i m np' x ox Ec E), Ea. cbn [rbind]. tauto. }
    destruct (K _ _ _ Eu) as (a & oa & Ea & Sa & Ra & Pa & Fa).
    destruct (file_after _ a ox oa b' k o reached lost f (m_in r) (m_P r) Ea Lk Fa Ho Hh Hkf D1 D2 D3)
      as (f' & W1 & W2 & W3 & W4 & W5).
    exists a, (ox ++ oa), f'. split; [exact Ea|]. split; [exact Sa|]. split.
    { rewrite <- (proj2 (sp_clock _ _ Sa)), (run_iter _ _ _ _ _ _ Ea). unfold j. lia. }
    split; [exact W1|]. split; [|exact W5]. exists f'. cbn [out_file saved]. split; [reflexivity|]. split; [exact W2|].
    apply (saved_after b' k o reached lost f f' old Ho W3 W4 Hold).
    intros oc ck' od Eq. destruct (updates_split _ _ _ _ _ oc ck' od Eu Eq) as (i & y & Hy & Ey & ->).
    destruct (K _ _ _ Ey) as (z & oz & Ez & Sz & Rz & Pz & Fz).
    destruct (updates_shown _ _ _ _ _ Ey) as (_ & L & _). rewrite shown_app in L. cbn in L. rewrite app_nil_r in L.
    assert (Ly : s_save_iter y = Z.of_nat (k + List.length (shown_records oc))) by (unfold k; lia).
    split; [|exact Ly]. eapply point_intro; [exact Ez|exact Rz|exact Pz|]. rewrite Ly. lia.
  Qed.

  Lemma resumed_own (Hw : whole_seconds (G:=G) (GN:=GN) c nb np) own nb' np2 n d st lost d' b :
    keeps (G:=G) (GN:=GN) store wr c nb np b (d own) ->
    session (GN:=GN) store wr c own (VBool true) nb' np2 n d st lost d' ->
    exists ck a o, saved (d own) = Some ck /\ s_time_iter st = c_time_iter ck + Z.of_nat n /\
      run (Z.to_nat (s_time_iter st)) = Ok (a, o) /\ same_point a st /\
      keeps (G:=G) (GN:=GN) store wr c nb np b (d' own) /\
      (lost = [] -> exists f, out_file (d' own) = Some f /\ complete b (Z.to_nat (s_time_iter st)) f).
  Proof.
    intros (f & Hf & Hh & Hck) Hs. inversion Hs as [m o0 np3 st' o reached lost' p E1 E2 E3 E4]; subst.
    unfold start, resume_checkpoint in E1. destruct (saved (d own)) as [ck|] eqn:Es; [|discriminate]. rewrite Hf in E1.
    apply rbind_Ok in E1 as ([r np4] & E1 & E5). apply okay_inj in E5. pose proof (f_equal (fun z => fst (fst z)) E5) as E6.
    pose proof (f_equal (fun z => snd (fst z)) E5) as E7. cbn in E6, E7. subst r o0. cbn in E3.
    destruct (Hck ck eq_refl) as [Hp Hl].
    destruct (gone_on Hw b ck false nb' np2 m np4 n st o reached lost b f (Some ck) Hp E1 E2 E3
      ltac:(auto) ltac:(discriminate) Hh ltac:(intros ck' K; injection K as <-; auto)) as (a & oa & f' & K1 & K2 & K3 & K4 & K5 & K6).
    assert (Ht : 0 <= c_time_iter ck) by (destruct Hp as (? & ? & ? & ? & ? & ?); assumption).
    unfold written in E4. rewrite Hf, K4, Es in E4. cbn [rbind] in E4. apply okay_inj in E4. subst p.
    exists ck, a, oa. unfold put. rewrite String.eqb_refl. replace (Z.to_nat (s_time_iter st)) with (Z.to_nat (c_time_iter ck) + n)%nat by lia.
    split; [reflexivity|]. split; [exact K3|]. split; [exact K1|]. split; [exact K2|]. split; [exact K5|].
    intros L. exists f'. auto.
  Qed.

  Lemma branched (Hw : whole_seconds (G:=G) (GN:=GN) c nb np) own src nb' np2 n d st lost d' b :
    keeps (G:=G) (GN:=GN) store wr c nb np b (d src) -> unused (d own) ->
    session (GN:=GN) store wr c own (VStr src) nb' np2 n d st lost d' ->
    exists ck a o b', saved (d src) = Some ck /\ s_time_iter st = c_time_iter ck + Z.of_nat n /\
      run (Z.to_nat (s_time_iter st)) = Ok (a, o) /\ same_point a st /\
      Z.of_nat b' = Z.of_nat b + c_save_iter ck /\
      (exists x ox, run (Z.to_nat (c_time_iter ck)) = Ok (x, ox) /\ b' = List.length (shown_records ox)) /\
      keeps (G:=G) (GN:=GN) store wr c nb np b' (d' own) /\
      (lost = [] -> exists f, out_file (d' own) = Some f /\ complete b' (Z.to_nat (s_time_iter st)) f).
  Proof.
    intros (f & Hf & Hh & Hck) [Hu1 Hu2] Hs. inversion Hs as [m o0 np3 st' o reached lost' p E1 E2 E3 E4]; subst.
    unfold start, resume_checkpoint in E1. destruct (saved (d src)) as [ck|] eqn:Es; [|discriminate]. rewrite Hu1 in E1.
    apply rbind_Ok in E1 as ([r np4] & E1 & E5). apply okay_inj in E5. pose proof (f_equal (fun z => fst (fst z)) E5) as E6.
    pose proof (f_equal (fun z => snd (fst z)) E5) as E7. cbn in E6, E7. subst r o0. cbn in E3.
    destruct (Hck ck eq_refl) as [Hp Hl]. pose proof Hp as (x & ox & Ex & Eck & Ht & Hk).
    destruct (run_shown _ _ _ _ _ _ Ex Hn) as (_ & Lx & _).
    assert (Hc : c_save_iter ck = s_save_iter x - Z.of_nat b) by (rewrite Eck; reflexivity).
    set (b' := List.length (shown_records ox)) in *.
    assert (Hb' : Z.of_nat b' = Z.of_nat b + c_save_iter ck) by lia.
    assert (Hempty : holds b' []).
    { destruct (run_file_eq store sel on md ts HS HM _ _ _ _ _ _ Ex Hn) as (inp & P & _ & _ & _ & Ef).
      eexists (Z.to_nat (c_time_iter ck)), _, _. split; [exact Ef|]. split; [rewrite !map_length; unfold b'; lia|]. cbn [app]. reflexivity. }
    destruct (gone_on Hw b ck true nb' np2 m np4 n st o reached lost b' [] None Hp E1 E2 E3
      ltac:(discriminate) ltac:(auto) Hempty ltac:(discriminate)) as (a & oa & f' & K1 & K2 & K3 & K4 & K5 & K6).
    unfold written in E4. rewrite Hu1, Hu2, K4 in E4. cbn [rbind] in E4. apply okay_inj in E4. subst p.
    exists ck, a, oa, b'. unfold put. rewrite String.eqb_refl. replace (Z.to_nat (s_time_iter st)) with (Z.to_nat (c_time_iter ck) + n)%nat by lia.
    split; [reflexivity|]. split; [exact K3|]. split; [exact K1|]. split; [exact K2|]. split; [exact Hb'|]. split; [eauto|].
    split; [exact K5|]. intros L. exists f'. auto.
  Qed.

  Lemma other_folders w own v nb' np2 n d st lost d' : session (GN:=GN) store w c own v nb' np2 n d st lost d' ->
    forall s, s <> own -> d' s = d s.
  Proof.
    intros Hs s H. inversion Hs; subst. unfold put. apply String.eqb_neq in H. rewrite H. reflexivity.
  Qed.

  Lemma history_keeps (Hw : whole_seconds (G:=G) (GN:=GN) c nb np) d : history (GN:=GN) store wr c nb np d ->
    forall s, unused (d s) \/ exists b, keeps (G:=G) (GN:=GN) store wr c nb np b (d s).
  Proof.
    intros H. induction H as [d H|own n d st lost d' H IH Hu Hs|own nb' np2 n d st lost d' H IH Hs
      |own src nb' np2 n d st lost d' H IH Hu Hs]; intros s; [auto| | |];
      (destruct (string_dec s own) as [->|Hne]; [|rewrite (other_folders _ _ _ _ _ _ _ _ _ _ Hs s Hne); apply IH]).
    - right. exists O. destruct (begun _ _ _ _ _ _ Hu Hs) as (o & _ & K & _). exact K.
    - right. destruct (IH own) as [[_ Hu]|[b K]].
      + inversion Hs as [m o0 np3 st' o reached lost' p E1 E2 E3 E4]; subst. unfold start, resume_checkpoint in E1.
        rewrite Hu in E1. discriminate.
      + exists b. destruct (resumed_own Hw _ _ _ _ _ _ _ _ _ K Hs) as (ck & a & o & _ & _ & _ & _ & K' & _). exact K'.
    - right. destruct (IH src) as [[_ Hsrc]|[b K]].
      + inversion Hs as [m o0 np3 st' o reached lost' p E1 E2 E3 E4]; subst. unfold start, resume_checkpoint in E1.
        rewrite Hsrc in E1. discriminate.
      + destruct (branched Hw _ _ _ _ _ _ _ _ _ _ K Hu Hs) as (ck & a & o & b' & _ & _ & _ & _ & _ & _ & K' & _). eauto.
  Qed.

  Lemma session_exists own v nb' np2 d m o0 np3 n st o reached lost :
    start (GN:=GN) own v c nb' np2 d = Ok (m, o0, np3) -> updates (m_P m) n (m_st m) = Ok (st, o) -> o0 ++ o = reached ++ lost ->
    exists p, written store wr (m_in m) (m_P m) reached (d own) = Ok p /\
      session (GN:=GN) store wr c own v nb' np2 n d st lost (put own p d).
  Proof.
    intros E1 E2 E3. unfold written.
    pose proof (write_all_puts store sel on md ts HS HM (m_in m) (m_P m) reached (match out_file (d own) with Some f => f | None => [] end)) as K.
    eexists. split; [rewrite K; reflexivity|]. econstructor; eauto. unfold written. rewrite K. reflexivity.
  Qed.
End Branches.

(** ** Whole time steps, exactly *)
From Coq Require Import Reals Lra.
From Flocq Require Import Core.
From Verif Require Import IterProofs.
Section Whole.
  Context {S N : Type} {G : Rng R S} {GN : NpRng N}.
  Notation XA := (RA (fun x => x)).
  Lemma updates_whole (P : params R) z : p_dt P = IZR z -> forall n (a b : state R S) o, updates (A:=XA) P n a = Ok (b, o) ->
    (exists y, s_save_time_since_data a = Fin (IZR y)) -> exists y, s_save_time_since_data b = Fin (IZR y).
  Proof.
    intros Hz. induction n as [|n IH]; intros a b o E Ha.
    - injection E as <- _. exact Ha.
    - cbn [updates] in E. apply rbind_Ok in E as ([x ox] & E1 & E). apply rbind_Ok in E as ([y oy] & E2 & E).
      apply okay_inj in E. apply (f_equal fst) in E. cbn in E. subst y. eapply IH; [exact E2|].
      destruct Ha as [y Hy]. destruct (since_keeps P a x ox E1 _ Hy) as [(_ & _ & ->)|(_ & _ & ->)].
      + exists 0. reflexivity.
      + exists (y + z). rewrite Hz, plus_IZR. reflexivity.
  Qed.
  Lemma whole_steps (c : inputs R) nb np (m : model (F:=R) S) np' z :
    construct (A:=XA) (G:=G) (GN:=GN) c nb np = Ok (m, np') -> p_dt (m_P m) = IZR z ->
    whole_seconds (A:=XA) (G:=G) (GN:=GN) c nb np.
  Proof.
    intros Ec Hz j x ox t E Ht. apply run_model_inv in E as (m' & np2 & st1 & o0 & o1 & Ec' & Ew & Eu & _).
    rewrite Ec in Ec'. apply okay_inj in Ec'. apply (f_equal fst) in Ec'. cbn in Ec'. subst m'.
    pose proof (construct_fresh (A:=XA) c nb np m np' Ec) as (F1 & _).
    assert (H1 : s_save_time_since_data st1 = Fin 0%R).
    { apply write_records in Ew as (_ & [(_ & _ & _ & H3)|(H1 & _)]); [auto|]. rewrite F1 in H1. discriminate. }
    destruct (updates_whole (m_P m) z Hz _ _ _ _ Eu ltac:(exists 0; exact H1)) as [y Hy].
    rewrite Hy in Ht. injection Ht as <-. change (IZR (Ztrunc (IZR y)) = IZR y). rewrite Ztrunc_IZR. reflexivity.
  Qed.
End Whole.
