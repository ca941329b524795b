(** Proofs about the contents of the output file. *)
From Coq Require Import ZArith List Bool String Lia.
From Verif Require Import Base Dict Params State Shared Water Sed RunProofs Iter IterSpec FrameProofs Inputs Init
  InitSpec InitProofs Session SessionSpec ResumeProofs SessionProofs AttrProofs Switches SwitchSpec SwitchProofs
  Records RecordsSpec.
Import ListNotations.
Local Open Scope Z_scope.

(** ** Writing at successive indices *)
Section Puts.
  Context {F : Type}.
  Definition puts (l : list (nat * entry F)) (f : ncfile F) : ncfile F :=
    fold_left (fun f x => write_at (fst x) (snd x) f) l f.

  Lemma write_at_short k (e : entry F) : forall f, (k <= List.length f)%nat ->
    write_at k e f = (firstn k f ++ Some e :: skipn (Datatypes.S k) f)%list.
  Proof.
    induction k as [|k IH]; intros [|x f] H; cbn in *; try reflexivity; try lia.
    rewrite IH by lia. reflexivity.
  Qed.
  Lemma skipn_more {T} (a b : nat) : forall l : list T, skipn a (skipn b l) = skipn (b + a) l.
  Proof. induction b as [|b IH]; intros [|y l]; cbn; auto. apply skipn_nil. Qed.
  Lemma puts_spec : forall (es : list (entry F)) k f, (k <= List.length f)%nat ->
    puts (combine (seq k (List.length es)) es) f
    = (firstn k f ++ map Some es ++ skipn (k + List.length es) f)%list.
  Proof.
    induction es as [|e es IH]; intros k f H; cbn [List.length seq combine puts fold_left map].
    - cbn. rewrite Nat.add_0_r, firstn_skipn. reflexivity.
    - cbn [fst snd]. rewrite (write_at_short k e f H). fold (puts (combine (seq (Datatypes.S k) (List.length es)) es)
        (firstn k f ++ Some e :: skipn (Datatypes.S k) f)).
      assert (Hl : List.length (firstn k f) = k) by (rewrite firstn_length; lia).
      rewrite IH by (rewrite app_length, Hl; cbn; lia).
      replace (Datatypes.S k) with (List.length (firstn k f) + 1)%nat at 1 by lia.
      rewrite firstn_app_2. cbn [firstn]. rewrite <- app_assoc. cbn [app]. f_equal. f_equal. f_equal.
      rewrite skipn_app, Hl. rewrite (skipn_all2 (firstn k f)) by (rewrite Hl; lia). cbn [app].
      replace (Datatypes.S k + List.length es - k)%nat with (Datatypes.S (List.length es)) by lia. cbn [skipn].
      change (skipn (List.length es) (skipn (Datatypes.S k) f) = skipn (k + Datatypes.S (List.length es)) f).
      rewrite skipn_more. f_equal. lia.
  Qed.
End Puts.

Section Records.
  Context {F : Type} {A : Arith F} {S N : Type} {G : Rng F S} {GN : NpRng N} (store : F -> F).

  (** ** Records written by updates *)
  Lemma write_shown (P : params F) (a b : state F S) o : write_output P a = (b, o) ->
    (shown_records o = [] /\ s_save_iter b = s_save_iter a /\ (s_save_time_since_data a = Inf -> fnan (p_save_dt P) = true)) \/
    (exists x, shown_records o = [(s_save_iter a, s_time b, x)] /\ same_but_counters x b /\
       s_save_iter b = s_save_iter a + 1).
  Proof.
    unfold write_output, output_data, output_checkpoint. intros E.
    destruct (ext_geb (s_save_time_since_data a) (p_save_dt P)) eqn:Eg; cbn -[ext_geb] in E;
      destruct (_ && _) in E; injection E as <- <-; cbn -[ext_geb].
    1,2: right; exists a; repeat split.
    all: left; repeat split; intros K; rewrite K in Eg; cbn in Eg; now apply negb_false_iff in Eg.
  Qed.
  Lemma update_shown (P : params F) (a b : state F S) o : update P a = Ok (b, o) ->
    (shown_records o = [] /\ s_save_iter b = s_save_iter a) \/
    (exists x, shown_records o = [(s_save_iter a, s_time b, x)] /\ same_but_counters x b /\
       s_save_iter b = s_save_iter a + 1).
  Proof.
    intros E. apply update_since in E as (x & _ & _ & Hi & E). apply write_shown in E. rewrite Hi in E. tauto.
  Qed.
  Lemma shown_app (o o' : list (output F S)) : shown_records (o ++ o') = (shown_records o ++ shown_records o')%list.
  Proof. induction o as [|[] o IH]; cbn; rewrite ?IH; reflexivity. Qed.

  (** The records of [n] updates: which updates made them. *)
  Lemma updates_shown (P : params F) n : forall (a b : state F S) o, updates P n a = Ok (b, o) ->
    map (fun r => fst (fst r)) (shown_records o) = zseq (s_save_iter a) (List.length (shown_records o)) /\
    s_save_iter b = s_save_iter a + Z.of_nat (List.length (shown_records o)) /\
    exists us, List.length us = List.length (shown_records o) /\ increasing us /\ Forall (fun u => (1 <= u <= n)%nat) us /\
      Forall2 (fun u r => exists x ox, updates P u a = Ok (x, ox) /\ snd (fst r) = s_time x /\ same_but_counters (snd r) x)
        us (shown_records o).
  Proof.
    induction n as [|n IH]; intros a b o E.
    - injection E as <- <-. cbn. split; [reflexivity|]. split; [lia|]. exists []. cbn. auto.
    - cbn [updates] in E. apply rbind_Ok in E as ([x ox] & E1 & E). apply rbind_Ok in E as ([y oy] & E2 & E).
      injection E as <- <-. destruct (IH _ _ _ E2) as (I1 & I2 & us & I3 & I4 & I5 & I6). rewrite shown_app.
      assert (K : Forall2 (fun u r => exists z oz, updates P u a = Ok (z, oz) /\ snd (fst r) = s_time z /\
                    same_but_counters (snd r) z) (map Datatypes.S us) (shown_records oy)).
      { clear -I6 E1. induction I6 as [|u r us rs H _ IH]; constructor; auto. destruct H as (z & oz & H & Ht & Hs).
        exists z, (ox ++ oz)%list. split; [|auto]. cbn [updates]. rewrite E1. cbn [rbind]. rewrite H. reflexivity. }
      assert (Hm : increasing (map Datatypes.S us)).
      { clear -I4. induction us as [|u us IH]; [exact I|]. destruct us as [|v us]; [exact I|].
        destruct I4 as [I4 I5]. split; [lia|]. apply IH. exact I5. }
      assert (Hi : increasing (1%nat :: map Datatypes.S us)).
      { destruct us as [|u us]; [exact I|]. split; [|exact Hm]. apply Forall_inv in I5. lia. }
      assert (Hr : Forall (fun u => (1 <= u <= Datatypes.S n)%nat) (map Datatypes.S us)).
      { apply Forall_forall. intros u Hu. apply in_map_iff in Hu as (v & <- & Hv). rewrite Forall_forall in I5.
        specialize (I5 v Hv). cbn in I5. lia. }
      destruct (update_shown P a x ox E1) as [(H1 & H2)|(z & H1 & H2 & H3)]; rewrite H1; cbn [app List.length map zseq fst snd].
      + rewrite H2 in I1, I2. split; [exact I1|]. split; [exact I2|]. exists (map Datatypes.S us).
        split; [rewrite map_length; exact I3|]. split; [apply Hm|]. auto.
      + rewrite H3 in I1, I2. split; [rewrite I1; reflexivity|]. split; [lia|]. exists (1%nat :: map Datatypes.S us).
        split; [cbn; rewrite map_length; lia|]. split; [apply Hi|]. split; [constructor; [lia|exact Hr]|].
        constructor; [|exact K]. exists x, (ox ++ [])%list. cbn [updates fst snd]. rewrite E1. cbn [rbind]. auto.
  Qed.

  (** ** Entries *)
  Definition attr_or (attr : string) (st : state F S) : grid F :=
    match attribute attr st with Ok g => g | Err _ => fun _ _ => fz 0 end.
  Definition ent (inp : inputs F) (P : params F) (vars : dict string) (r : Z * F * state F S) : entry F :=
    mkEntry (store (snd (fst r)))
      (map (fun kv => (fst kv, fun i j => store (attr_or (snd kv) (snd r) i j))) vars)
      [("H_SL"%string, store (s_H_SL (snd r))); ("f_bedload"%string, store (p_f_bedload P));
       ("C0_percent"%string, store (i_C0_percent inp)); ("u0"%string, store (p_u0 P))].

  Definition known (attr : string) : Prop := forall st : state F S, exists g, attribute attr st = Ok g.
  Lemma known_outputs g k a : In (k, a) (grd_outputs g) -> known a.
  Proof.
    intros H st. destruct g; cbn in H; repeat (destruct H as [H|H]; [injection H as <- <-; eexists; reflexivity|]); contradiction.
  Qed.
  Lemma grids_of_known (st : state F S) : forall l : dict string, (forall k a, In (k, a) l -> known a) ->
    grids_of store l st = Ok (map (fun kv => (fst kv, fun i j => store (attr_or (snd kv) st i j))) l).
  Proof.
    induction l as [|[k a] l IH]; intros H; [reflexivity|]. cbn [grids_of map fst snd].
    destruct (H k a (or_introl eq_refl) st) as [g Eg]. unfold attr_or at 1. rewrite Eg. cbn [rbind].
    rewrite IH by (intros k' a' I'; apply (H k' a'); right; exact I'). reflexivity.
  Qed.

  Section Writer.
    Context (x : selection) (on : switch -> bool) (md ts : bool) (HS : selects x on) (HM : metas_on on md).

    Lemma write_record_ent inp P k t (st : state F S) f :
      write_record store (open_writer x md ts) inp P k t st f
      = Ok (write_at (Z.to_nat k) (ent inp P (var_list x) (k, t, st)) f).
    Proof.
      unfold write_record. destruct (record_ok x on md ts HS) as (r & Er & _ & Hg & Ht & Hm & _). rewrite Er. cbn [rbind].
      rewrite (proj2 Ht HM), Hg, (Hm HM). rewrite grids_of_known; [reflexivity|].
      intros k' a Hi. apply (se_vars x on HS) in Hi as (g & _ & Hi). eapply known_outputs; eauto.
    Qed.
    Lemma write_all_puts inp P : forall (o : list (output F S)) f,
      write_all store (open_writer x md ts) inp P o f
      = Ok (puts (map (fun r => (Z.to_nat (fst (fst r)), ent inp P (var_list x) r)) (shown_records o)) f).
    Proof.
      induction o as [|[k t st|c] o IH]; intros f; cbn [write_all shown_records map]; [reflexivity| |apply IH].
      rewrite write_record_ent. cbn [rbind]. rewrite IH. reflexivity.
    Qed.
    Lemma indexed inp P : forall (l : list (Z * F * state F S)) (k : nat),
      map (fun r => fst (fst r)) l = zseq (Z.of_nat k) (List.length l) ->
      map (fun r => (Z.to_nat (fst (fst r)), ent inp P (var_list x) r)) l
      = combine (seq k (List.length (map (ent inp P (var_list x)) l))) (map (ent inp P (var_list x)) l).
    Proof.
      induction l as [|r l IH]; intros k H; [reflexivity|]. cbn [map zseq List.length seq combine] in *.
      injection H as H1 H2. rewrite H1, Nat2Z.id. f_equal. apply IH. rewrite H2. f_equal. lia.
    Qed.
    Lemma write_all_at inp P (o : list (output F S)) f k : (k <= List.length f)%nat ->
      map (fun r => fst (fst r)) (shown_records o) = zseq (Z.of_nat k) (List.length (shown_records o)) ->
      write_all store (open_writer x md ts) inp P o f
      = Ok (firstn k f ++ map Some (map (ent inp P (var_list x)) (shown_records o)) ++
            skipn (k + List.length (shown_records o)) f)%list.
    Proof.
      intros Hk H. rewrite write_all_puts, (indexed inp P _ k H), puts_spec by exact Hk. rewrite map_length. reflexivity.
    Qed.

    Lemma ent_shows inp P r (st : state F S) c : snd (fst r) = s_time st -> same_but_counters (snd r) st ->
      s_qs (snd r) = s_qs st ->
      p_f_bedload P = i_f_bedload c -> i_C0_percent inp = i_C0_percent c -> p_u0 P = i_u0 c ->
      shows store on c st (ent inp P (var_list x) r).
    Proof.
      intros Ht Hs Hq H1 H2 H3. apply same_fields in Hs.
      assert (HA : forall a, attr_or a (snd r) = attr_or a st).
      { intros a. unfold attr_or, attribute. decompose [and] Hs.
        repeat match goal with |- context [String.eqb a ?s] => destruct (String.eqb a s); [congruence|] end. reflexivity. }
      assert (HF : forall g k fld, In (k, fld) (grd_fields g) <-> exists a, In (k, a) (grd_outputs g) /\ fld = attr_or a).
      { intros g k fld. destruct g; cbn; (split;
          [intros H; repeat (destruct H as [H|H]; [injection H as <- <-; eexists; split; [try (left; reflexivity); try (right; left; reflexivity)|reflexivity]|]); contradiction
          |intros (a & H & ->); repeat (destruct H as [H|H]; [injection H as <- <-; try (left; reflexivity); try (right; left; reflexivity)|]); contradiction]). }
      constructor; cbn [e_time e_grids e_meta ent].
      - rewrite Ht. reflexivity.
      - intros name y. rewrite in_map_iff. split.
        + intros ([k a] & E & Hi). cbn [fst snd] in E. injection E as <- <-. apply (se_vars x on HS) in Hi as (g & Ho & Hi).
          exists g, (attr_or a). split; [exact Ho|]. split; [apply HF; eauto|]. rewrite HA. reflexivity.
        + intros (g & fld & Ho & Hi & ->). apply HF in Hi as (a & Hi & ->). exists (name, a). cbn [fst snd].
          split; [rewrite HA; reflexivity|]. apply (se_vars x on HS). eauto.
      - unfold dkeys. rewrite map_map. exact (se_vars_once x on HS).
      - rewrite H1, H2, H3. decompose [and] Hs. congruence.
    Qed.
  End Writer.

  (** Constants of a constructed model. *)
  Lemma process_constants (c c' : inputs F) : process_input_to_model c = Ok c' ->
    i_f_bedload c' = i_f_bedload c /\ i_C0_percent c' = i_C0_percent c /\ i_u0 c' = i_u0 c.
  Proof.
    rewrite process_chain. intros E.
    repeat match type of E with (if ?b then _ else _) = _ => destruct b; [discriminate|] end.
    unfold set_active_layer_thickness in E.
    destruct (i_active_layer_thickness c) as [t|].
    - destruct (fltb t _); [discriminate|]. cbn [rbind] in E.
      repeat match type of E with (if ?b then _ else _) = _ => destruct b; [discriminate|] end.
      injection E as <-. auto.
    - cbn [rbind] in E. repeat match type of E with (if ?b then _ else _) = _ => destruct b; [discriminate|] end.
      injection E as <-. auto.
  Qed.
  Lemma construct_constants (c : inputs F) nb np (m : model (F:=F) S) np' : construct (G:=G) (GN:=GN) c nb np = Ok (m, np') ->
    p_f_bedload (m_P m) = i_f_bedload c /\ i_C0_percent (m_in m) = i_C0_percent c /\ p_u0 (m_P m) = i_u0 c.
  Proof.
    unfold construct. intros E. apply rbind_Ok in E as (c' & E1 & E). apply process_constants in E1 as (C1 & C2 & C3).
    destruct (seed_of c' np) as (z & K). rewrite K in E. clear K.
    apply rbind_Ok in E as (P & E2 & E). apply rbind_Ok in E as ([P' st] & E3 & E). injection E as <- <-.
    pose proof (boundary_keeps p_f_bedload _ _ _ ltac:(reflexivity) E2) as B1.
    pose proof (boundary_keeps p_u0 _ _ _ ltac:(reflexivity) E2) as B2.
    unfold create_domain in E3. destruct (size_indices P <? 0); [discriminate|]. injection E3 as <- <-.
    cbn [m_in m_P]. unfold init_subsidence, init_sediment_routers.
    match goal with |- context [if ?b then _ else _] => destruct b end;
      (split; [rewrite <- C1; exact B1|split; [exact C2|rewrite <- C3; exact B2]]).
  Qed.
  Lemma ent_constants inp inp' P P' vars r (c : inputs F) :
    p_f_bedload P = i_f_bedload c -> i_C0_percent inp = i_C0_percent c -> p_u0 P = i_u0 c ->
    p_f_bedload P' = i_f_bedload c -> i_C0_percent inp' = i_C0_percent c -> p_u0 P' = i_u0 c ->
    ent inp P vars r = ent inp' P' vars r.
  Proof. intros. unfold ent. congruence. Qed.

  (** ** A whole run *)
  Lemma run_shown (c : inputs F) nb np n st o : run_model (G:=G) (GN:=GN) c nb np n = Ok (st, o) ->
    fnan (i_save_dt c) = false ->
    map (fun r => fst (fst r)) (shown_records o) = zseq 0 (List.length (shown_records o)) /\
    s_save_iter st = Z.of_nat (List.length (shown_records o)) /\
    exists us, List.length us = List.length (shown_records o) /\ hd_error us = Some O /\ increasing us /\
      Forall (fun u => (u <= n)%nat) us /\
      Forall2 (fun u r => exists x ox, run_model (G:=G) (GN:=GN) c nb np u = Ok (x, ox) /\ snd (fst r) = s_time x /\
        same_but_counters (snd r) x) us (shown_records o).
  Proof.
    intros E Hn. apply run_model_inv in E as (m & np2 & st1 & o0 & o1 & Ec & Ew & Eu & ->).
    pose proof (construct_fresh _ _ _ _ _ Ec) as (F1 & _ & F3 & _ & _ & _ & F7).
    destruct (write_shown _ _ _ _ Ew) as [(_ & _ & K)|(x & H1 & H2 & H3)]; [rewrite F7 in K; rewrite (K F1) in Hn; discriminate|].
    destruct (updates_shown _ _ _ _ _ Eu) as (I1 & I2 & us & I3 & I4 & I5 & I6).
    rewrite shown_app, H1. cbn [app List.length map zseq fst]. rewrite F3 in *. rewrite H3 in I1, I2.
    split; [rewrite I1; reflexivity|]. split; [lia|]. exists (O :: us). split; [cbn; lia|]. split; [reflexivity|].
    assert (R : forall u y oy, updates (m_P m) u st1 = Ok (y, oy) ->
              run_model (G:=G) (GN:=GN) c nb np u = Ok (y, o0 ++ oy)%list).
    { intros u y oy Ey. unfold run_model, new_model. rewrite Ec. cbn [rbind]. rewrite Ew. cbn [rbind m_P m_st]. rewrite Ey. reflexivity. }
    split. { destruct us as [|u us]; cbn; [exact I|]. split; [apply Forall_inv in I5; lia|exact I4]. }
    split. { constructor; [lia|]. eapply Forall_impl; [|exact I5]. cbn. intros; lia. }
    constructor.
    - exists st1, (o0 ++ [])%list. split; [apply R; reflexivity|]. cbn [fst snd]. auto.
    - clear -I6 R. induction I6 as [|u r us rs H _ IH]; constructor; auto. destruct H as (y & oy & Ey & H). eauto.
  Qed.

  Lemma F2_nth {X Y} (Q : X -> Y -> Prop) l l' dx dy : Forall2 Q l l' -> forall k, (k < List.length l)%nat -> Q (nth k l dx) (nth k l' dy).
  Proof. intros H. induction H; intros [|k] Hk; cbn in *; try lia; auto. apply IHForall2. lia. Qed.

  Context (x : selection) (on : switch -> bool) (md ts : bool) (HS : selects x on) (HM : metas_on on md).

  Lemma run_file_eq (c : inputs F) nb np n st o : run_model (G:=G) (GN:=GN) c nb np n = Ok (st, o) ->
    fnan (i_save_dt c) = false ->
    exists inp P, p_f_bedload P = i_f_bedload c /\ i_C0_percent inp = i_C0_percent c /\ p_u0 P = i_u0 c /\
      run_file store (G:=G) (GN:=GN) (open_writer x md ts) c nb np n
      = Ok (map Some (map (ent inp P (var_list x)) (shown_records o))).
  Proof.
    intros E Hn. destruct (run_shown _ _ _ _ _ _ E Hn) as (I1 & _).
    apply run_model_inv in E as (m & np2 & st1 & o0 & o1 & Ec & Ew & Eu & ->).
    destruct (construct_constants _ _ _ _ _ Ec) as (C1 & C2 & C3). exists (m_in m), (m_P m). repeat split; auto.
    unfold run_file, new_model. rewrite Ec. cbn [rbind]. rewrite Ew. cbn [rbind m_P m_st m_in]. rewrite Eu. cbn [rbind].
    rewrite (write_all_at x on md ts HS HM (m_in m) (m_P m) (o0 ++ o1) [] 0 (le_n 0) I1).
    cbn [firstn app]. rewrite skipn_nil, app_nil_r. reflexivity.
  Qed.

  Lemma same_qs (a b : state F S) : same_but_counters a b -> s_qs a = s_qs b.
  Proof. intros H. apply (f_equal s_qs) in H. exact H. Qed.

  Lemma file_shows (c : inputs F) nb np n st o : run_model (G:=G) (GN:=GN) c nb np n = Ok (st, o) ->
    fnan (i_save_dt c) = false ->
    exists f us, run_file store (G:=G) (GN:=GN) (open_writer x md ts) c nb np n = Ok f /\
      List.length f = List.length (shown_records o) /\
      List.length us = List.length f /\ hd_error us = Some O /\ increasing us /\ Forall (fun u => (u <= n)%nat) us /\
      forall k, (k < List.length f)%nat -> exists e su ou, entry_at f k = Some e /\
        run_model (G:=G) (GN:=GN) c nb np (nth k us O) = Ok (su, ou) /\ shows store on c su e.
  Proof.
    intros E Hn. destruct (run_shown _ _ _ _ _ _ E Hn) as (_ & _ & us & L1 & L2 & L3 & L4 & L5).
    destruct (run_file_eq _ _ _ _ _ _ E Hn) as (inp & P & C1 & C2 & C3 & Ef).
    exists (map Some (map (ent inp P (var_list x)) (shown_records o))), us. split; [exact Ef|].
    rewrite !map_length. repeat (split; [assumption || reflexivity|]). intros k Hk.
    assert (D : Z * F * state F S) by (destruct (shown_records o); [cbn in Hk; lia|assumption]).
    pose proof (F2_nth _ _ _ O D L5 k ltac:(lia)) as (su & ou & Er & Ht & Hs).
    exists (ent inp P (var_list x) (nth k (shown_records o) D)), su, ou. split; [|split; [exact Er|]].
    - unfold entry_at. rewrite map_map.
      rewrite (nth_indep _ None (Some (ent inp P (var_list x) D))) by (rewrite map_length; exact Hk).
      rewrite (map_nth (fun r => Some (ent inp P (var_list x) r))). reflexivity.
    - apply ent_shows; auto. apply same_qs; exact Hs.
  Qed.

  (** Records stay as they are while a run goes on. *)
  Lemma run_prefix (c : inputs F) nb np k n st o : run_model (G:=G) (GN:=GN) c nb np (k + n) = Ok (st, o) ->
    exists st1 o1 o2, run_model (G:=G) (GN:=GN) c nb np k = Ok (st1, o1) /\ o = (o1 ++ o2)%list.
  Proof.
    intros E. apply run_model_inv in E as (m & np2 & st1 & o0 & o1 & Ec & Ew & Eu & ->).
    rewrite updates_app in Eu. apply rbind_Ok in Eu as ([y oy] & Ey & Eu). apply rbind_Ok in Eu as ([z oz] & Ez & Eu).
    injection Eu as <- <-. exists y, (o0 ++ oy)%list, oz. split; [|rewrite app_assoc; reflexivity].
    unfold run_model, new_model. rewrite Ec. cbn [rbind]. rewrite Ew. cbn [rbind m_P m_st]. rewrite Ey. reflexivity.
  Qed.
  Lemma file_grows (c : inputs F) nb np k n st o : run_model (G:=G) (GN:=GN) c nb np (k + n) = Ok (st, o) ->
    fnan (i_save_dt c) = false ->
    exists f g, run_file store (G:=G) (GN:=GN) (open_writer x md ts) c nb np k = Ok f /\
      run_file store (G:=G) (GN:=GN) (open_writer x md ts) c nb np (k + n) = Ok (f ++ g)%list.
  Proof.
    intros E Hn. destruct (run_prefix _ _ _ _ _ _ _ E) as (st1 & o1 & o2 & E1 & ->).
    destruct (run_file_eq _ _ _ _ _ _ E1 Hn) as (inp & P & C1 & C2 & C3 & Ef).
    destruct (run_file_eq _ _ _ _ _ _ E Hn) as (inp' & P' & C1' & C2' & C3' & Ef').
    rewrite Ef, Ef', shown_app, !map_app.
    exists (map Some (map (ent inp P (var_list x)) (shown_records o1))),
           (map Some (map (ent inp' P' (var_list x)) (shown_records o2))). split; [reflexivity|]. f_equal. f_equal. f_equal.
    apply map_ext. intros r. symmetry. apply ent_constants with (c := c); auto.
  Qed.

  (** ** After a resume *)
  Lemma same_record_ent d inp P (r r' : Z * F * state F S) : same_record d r r' ->
    ent inp P (var_list x) r = ent inp P (var_list x) r'.
  Proof.
    intros (_ & Ht & Hs & Hq). destruct Hs as [S1 S2 S3 [S4 [S5 S6]] [S7 [S8 S9]] [S10 _] S11 _ _].
    unfold ent. rewrite Ht, S11. f_equal. apply map_ext. intros [k a]. cbn [fst snd]. f_equal.
    assert (HA : attr_or a (snd r) = attr_or a (snd r')).
    { unfold attr_or, attribute.
      repeat match goal with |- context [String.eqb a ?s] => destruct (String.eqb a s); [congruence|] end. reflexivity. }
    rewrite HA. reflexivity.
  Qed.

  Lemma resumed_indices d (l l' : list (Z * F * state F S)) : Forall2 (same_record d) l l' -> forall k,
    map (fun r => fst (fst r)) l = zseq (k + d) (List.length l) ->
    map (fun r => fst (fst r)) l' = zseq k (List.length l').
  Proof.
    intros H. induction H as [|r r' l l' H _ IH]; intros k E; [reflexivity|]. cbn [map List.length zseq] in *.
    injection E as E1 E2. destruct H as [H _]. rewrite H, E1. f_equal; [lia|]. apply IH. rewrite E2. f_equal. lia.
  Qed.
  Lemma zseq_app k n : forall m, zseq k (n + m) = (zseq k n ++ zseq (k + Z.of_nat n) m)%list.
  Proof.
    revert k. induction n as [|n IH]; intros k m; cbn [zseq Nat.add app]; [f_equal; lia|].
    rewrite IH. f_equal. f_equal. f_equal. lia.
  Qed.

  Lemma resumed_file (c : inputs F) nb np k st o ck t nb' np' missing r np2 n st' o' T :
    run_model (G:=G) (GN:=GN) c nb np k = Ok (st, o) -> In (Checkpoint ck) o -> fnan (i_save_dt c) = false ->
    c_save_time_since_data ck = Fin t -> fz (ftrunc t) = t ->
    resume (GN:=GN) c ck missing nb' np' = Ok (r, np2) -> updates (m_P r) n (m_st r) = Ok (st', o') ->
    T = (Z.to_nat (c_time_iter ck) + n)%nat ->
    exists ft, run_file store (G:=G) (GN:=GN) (open_writer x md ts) c nb np T = Ok ft /\
      run_file store (G:=G) (GN:=GN) (open_writer x md ts) c nb np (Z.to_nat (c_time_iter ck)) = Ok (firstn (Z.to_nat (c_save_iter ck)) ft) /\
      0 <= c_save_iter ck <= Z.of_nat (List.length ft) /\
      (missing = false -> forall f, firstn (Z.to_nat (c_save_iter ck)) f = firstn (Z.to_nat (c_save_iter ck)) ft ->
        write_all store (open_writer x md ts) (m_in r) (m_P r) o' f = Ok (ft ++ skipn (List.length ft) f)%list) /\
      (missing = true -> write_all store (open_writer x md ts) (m_in r) (m_P r) o' [] = Ok (skipn (Z.to_nat (c_save_iter ck)) ft)).
  Proof.
    intros E Hc Hn Ht Hw Er Eu ->.
    destruct (resumed_records c nb np k st o ck t nb' np' missing E Hc Hn Ht Hw) as (r0 & np3 & ox & Er0 & Eox & HA).
    rewrite Er in Er0. injection Er0 as <- <-. specialize (HA n).
    destruct (run_checkpoint _ _ _ _ _ _ _ E Hc) as (y & oy & _ & Ey & ->). cbn [c_time_iter c_save_iter save_the_checkpoint] in *.
    rewrite Ey in Eox. injection Eox as <-. rewrite Eu in HA.
    destruct (run_model (G:=G) (GN:=GN) c nb np (Z.to_nat (s_time_iter y) + n)) as [[a oa]|] eqn:Ea; [|destruct HA].
    cbn [alike snd] in HA. destruct HA as (ob & -> & HF).
    destruct (run_shown _ _ _ _ _ _ Ea Hn) as (J1 & _). destruct (run_shown _ _ _ _ _ _ Ey Hn) as (_ & Y2 & _).
    destruct (run_file_eq _ _ _ _ _ _ Ea Hn) as (inp & P & C1 & C2 & C3 & Ef).
    destruct (run_file_eq _ _ _ _ _ _ Ey Hn) as (inp' & P' & C1' & C2' & C3' & Ef').
    apply resume_inv in Er as (m0 & E0 & R1 & R2 & _). destruct (construct_constants _ _ _ _ _ E0) as (D1 & D2 & D3).
    rewrite <- R1 in D1, D3. rewrite <- R2 in D2.
    assert (HE : forall l, map (ent inp P (var_list x)) l = map (ent (m_in r) (m_P r) (var_list x)) l).
    { intros l. apply map_ext. intros z. apply ent_constants with (c := c); auto. }
    assert (HE' : forall l, map (ent inp' P' (var_list x)) l = map (ent (m_in r) (m_P r) (var_list x)) l).
    { intros l. apply map_ext. intros z. apply ent_constants with (c := c); auto. }
    rewrite shown_app in J1, Ef. rewrite HE in Ef. rewrite HE' in Ef'. rewrite !map_app in Ef. rewrite map_app, app_length, zseq_app in J1.
    apply (f_equal (skipn (List.length (shown_records oy)))) in J1.
    assert (SK : forall {X} (l l' : list X) n, List.length l = n -> skipn n (l ++ l') = l').
    { intros X l l' j <-. rewrite skipn_app, skipn_all, Nat.sub_diag. reflexivity. }
    assert (FK : forall {X} (l l' : list X) n, List.length l = n -> firstn n (l ++ l') = l).
    { intros X l l' j <-. rewrite firstn_app, firstn_all, Nat.sub_diag. cbn. apply app_nil_r. }
    assert (ZL : forall k n, List.length (zseq k n) = n).
    { intros j i. revert j. induction i; intros; cbn; auto. }
    rewrite !SK in J1 by (rewrite ?map_length, ?ZL; reflexivity). rewrite Z.add_0_l in J1.
    assert (Hent : map (ent (m_in r) (m_P r) (var_list x)) (shown_records ob) = map (ent (m_in r) (m_P r) (var_list x)) (shown_records o')).
    { clear -HF. induction HF as [|p q l l' H _ IH]; cbn [map]; [reflexivity|]. rewrite IH. f_equal. eapply same_record_ent; eauto. }
    eexists. split; [exact Ef|]. rewrite Y2, Nat2Z.id. split.
    { rewrite Ef', FK by (rewrite !map_length; reflexivity). reflexivity. }
    split. { rewrite app_length, !map_length. lia. }
    split.
    - intros -> f Hf. rewrite FK in Hf by (rewrite !map_length; reflexivity).
      assert (Hl : (List.length (shown_records oy) <= List.length f)%nat).
      { apply (f_equal (@List.length _)) in Hf. rewrite firstn_length, !map_length in Hf. lia. }
      rewrite (write_all_at x on md ts HS HM _ _ o' f (List.length (shown_records oy)) Hl).
      2:{ eapply resumed_indices; [exact HF|]. rewrite Z.add_0_r. exact J1. }
      rewrite Hf, Hent, app_assoc. f_equal. f_equal. f_equal. rewrite app_length, !map_length. lia.
    - intros ->. rewrite (write_all_at x on md ts HS HM _ _ o' [] 0 (le_n 0)).
      2:{ eapply resumed_indices; [exact HF|]. cbn [c_save_iter]. rewrite Y2. exact J1. }
      rewrite SK by (rewrite !map_length; reflexivity). rewrite Hent, skipn_nil, app_nil_r. reflexivity.
  Qed.

  (** The interrupted run went on for some time after the checkpoint. *)
  Lemma crashed_file (c : inputs F) nb np k st o ck t nb' np' r np2 n st' o' T :
    run_model (G:=G) (GN:=GN) c nb np k = Ok (st, o) -> In (Checkpoint ck) o -> fnan (i_save_dt c) = false ->
    c_save_time_since_data ck = Fin t -> fz (ftrunc t) = t ->
    resume (GN:=GN) c ck false nb' np' = Ok (r, np2) -> updates (m_P r) n (m_st r) = Ok (st', o') ->
    T = (Z.to_nat (c_time_iter ck) + n)%nat ->
    exists f, run_file store (G:=G) (GN:=GN) (open_writer x md ts) c nb np k = Ok f /\
      write_all store (open_writer x md ts) (m_in r) (m_P r) o' f =
      run_file store (G:=G) (GN:=GN) (open_writer x md ts) c nb np (Nat.max k T).
  Proof.
    intros E Hc Hn Ht Hw Er Eu HT.
    destruct (resumed_file c nb np k st o ck t nb' np' false r np2 n st' o' T E Hc Hn Ht Hw Er Eu HT)
      as (ft & Ef & Ej & Hl & HR & _). specialize (HR eq_refl).
    destruct (run_checkpoint _ _ _ _ _ _ _ E Hc) as (y & oy & Hj & Ey & _).
    destruct (run_file_eq _ _ _ _ _ _ E Hn) as (inp & P & _ & _ & _ & Efk).
    set (fk := map Some (map (ent inp P (var_list x)) (shown_records o))) in *. exists fk. split; [exact Efk|].
    assert (Hpre : exists g, fk = (firstn (Z.to_nat (c_save_iter ck)) ft ++ g)%list).
    { set (j := Z.to_nat (c_time_iter ck)) in *.
      assert (Ek : run_model (G:=G) (GN:=GN) c nb np (j + (k - j)) = Ok (st, o)) by (replace (j + (k - j))%nat with k by (unfold j; lia); exact E).
      destruct (file_grows c nb np j (k - j) st o Ek Hn) as (f1 & g & G1 & G2). rewrite Ej in G1. injection G1 as <-.
      replace (j + (k - j))%nat with k in G2 by (unfold j; lia). rewrite Efk in G2. injection G2 as ->. eauto. }
    rewrite HR.
    2:{ destruct Hpre as [g ->]. rewrite firstn_app, firstn_firstn, Nat.min_id.
        rewrite firstn_length, Nat.min_l by lia. rewrite Nat.sub_diag. cbn. apply app_nil_r. }
    destruct (Nat.le_gt_cases T k) as [Hk|Hk].
    - rewrite Nat.max_l by exact Hk. rewrite Efk.
      assert (Ek : run_model (G:=G) (GN:=GN) c nb np (T + (k - T)) = Ok (st, o)) by (replace (T + (k - T))%nat with k by lia; exact E).
      destruct (file_grows c nb np T (k - T) st o Ek Hn) as (f1 & g & G1 & G2). rewrite Ef in G1. injection G1 as <-.
      replace (T + (k - T))%nat with k in G2 by lia. rewrite Efk in G2. injection G2 as G2. rewrite G2.
      rewrite skipn_app, skipn_all, Nat.sub_diag. reflexivity.
    - rewrite Nat.max_r by lia. rewrite Ef. f_equal.
      destruct (resumed_run c nb np k st o ck nb' np' false E Hc Hn) as (r0 & np3 & Er0 & _ & HA).
      rewrite Er in Er0. injection Er0 as <- <-. specialize (HA n). rewrite Eu, <- HT in HA.
      destruct (run_model (G:=G) (GN:=GN) c nb np T) as [[a oa]|] eqn:Ea; [|destruct HA].
      assert (Ek : run_model (G:=G) (GN:=GN) c nb np (k + (T - k)) = Ok (a, oa)) by (replace (k + (T - k))%nat with T by lia; exact Ea).
      destruct (file_grows c nb np k (T - k) a oa Ek Hn) as (f1 & g & G1 & G2). rewrite Efk in G1. injection G1 as <-.
      replace (k + (T - k))%nat with T in G2 by lia. rewrite Ef in G2. injection G2 as ->.
      rewrite skipn_all2; [apply app_nil_r|]. rewrite app_length. lia.
  Qed.
End Records.
