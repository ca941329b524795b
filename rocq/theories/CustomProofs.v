(** Proofs about classes derived from the model class (C87). *)
From Coq Require Import ZArith List Bool Reals Lra Lia.
From Verif Require Import Base Shared SharedSpec RLemmas Params State Water WaterSpec Sed SedSpec RunProofs Iter IterSpec IterProofs FrameProofs
  Inputs Init Session SessionSpec ResumeProofs SessionProofs BranchProofs Hooks HookSpec HookProofs Custom CustomSpec.
Import ListNotations.
Local Open Scope Z_scope.

(** ** What the methods of the library leave alone *)
Section Methods.
  Context {F : Type} {A : Arith F} {S : Type} {G : Rng F S} (P : params F).
  Definition kinds (s : state F S) := (s_cell_type s, s_mod_water_weight s, s_mod_sed_weight s, s_mod_erosion s).

  Definition untimed (e : event) : Prop :=
    e <> Do AdvanceClock /\ e <> Start OutputData /\ e <> Start OutputCheckpoint.

  Lemma surface_kept ps (a b : state F S) : compute_free_surface P ps a = Ok b -> clock b = clock a /\ kinds b = kinds a.
  Proof.
    unfold compute_free_surface. intros E. apply rbind_Ok in E as ([v t] & _ & E). injection E as <-. split; reflexivity.
  Qed.
  Lemma route_all_kept g (a b : state F S) : route_all_parcels P g a = Ok b -> clock b = clock a /\ kinds b = kinds a.
  Proof.
    unfold route_all_parcels, route_all_parcels_res. intros E. apply rbind_Ok in E as ([x Vs] & E & E').
    injection E' as ->. apply rbind_Ok in E as ([starts s] & _ & E). apply rbind_Ok in E as ([[bb Vs'] s'] & _ & E).
    injection E as <- _. split; reflexivity.
  Qed.
  Lemma diffuse_kept n : forall (a : state F S), clock (diffuse_passes P n a) = clock a /\ kinds (diffuse_passes P n a) = kinds a.
  Proof.
    induction n as [| n IH]; intros a; [split; reflexivity |]. cbn [diffuse_passes].
    destruct (IH (diffuse_once P a)) as [-> ->]. split; reflexivity.
  Qed.
  Lemma subsidence_kept (a : state F S) : clock (apply_subsidence P a) = clock a /\ kinds (apply_subsidence P a) = kinds a.
  Proof. unfold apply_subsidence. destruct (_ && _); split; reflexivity. Qed.

  Lemma method_kept e w w' : untimed e -> method_effect P e w = Ok w' ->
    clock (k_st w') = clock (k_st w) /\ kinds (k_st w') = kinds (k_st w) /\ k_out w' = k_out w.
  Proof.
    intros (U1 & U2 & U3).
    assert (Id : Ok w = Ok w' -> clock (k_st w') = clock (k_st w) /\ kinds (k_st w') = kinds (k_st w) /\ k_out w' = k_out w)
      by (intros [=<-]; auto).
    assert (St : forall f, (forall b, f (k_st w) = Ok b -> clock b = clock (k_st w) /\ kinds b = kinds (k_st w)) ->
              with_st f w = Ok w' -> clock (k_st w') = clock (k_st w) /\ kinds (k_st w') = kinds (k_st w) /\ k_out w' = k_out w).
    { intros f Hf E. unfold with_st in E. apply rbind_Ok in E as (b & E1 & E). injection E as <-. cbn [k_st k_out].
      destruct (Hf b E1) as [-> ->]. auto. }
    destruct e as [m | m | m | s]; try exact Id.
    - destruct m; try exact Id; try contradiction; cbn [method_effect].
      + apply St. intros b [=<-]. split; reflexivity.
      + apply St. intros b [=<-]. apply subsidence_kept.
      + apply St. intros b [=<-]. split; reflexivity.
      + intros E. apply rbind_Ok in E as ([[[ps [[qx qy] qw]] wd] s] & _ & E). injection E as <-. repeat split.
      + apply St. intros b E. exact (surface_kept _ _ _ E).
      + apply St. intros b [=<-]. split; reflexivity.
      + apply St. intros b [=<-]. split; reflexivity.
      + apply St. intros b E. exact (route_all_kept _ _ _ E).
      + apply St. intros b [=<-]. apply diffuse_kept.
      + apply St. intros b E. exact (route_all_kept _ _ _ E).
      + apply St. intros b [=<-]. split; reflexivity.
    - destruct s; try exact Id; try contradiction; cbn [method_effect]. apply St. intros b [=<-]. split; reflexivity.
  Qed.

  Lemma method_kinds e w w' : method_effect P e w = Ok w' -> kinds (k_st w') = kinds (k_st w).
  Proof.
    destruct (event_eq_dec e (Do AdvanceClock)) as [-> | N1].
    { cbn. intros [=<-]. reflexivity. }
    destruct (event_eq_dec e (Start OutputData)) as [-> | N2].
    { cbn. unfold output_data. destruct (ext_geb _ _); intros [=<-]; reflexivity. }
    destruct (event_eq_dec e (Start OutputCheckpoint)) as [-> | N3].
    { cbn. unfold output_checkpoint. destruct (_ && _); intros [=<-]; reflexivity. }
    intros E. apply (method_kept e w w'); [repeat split; assumption | exact E].
  Qed.
End Methods.

Section Runs.
  Context {F : Type} {A : Arith F} {S : Type} {G : Rng F S} {Y : Type}.
  Context (hook : event -> custom F S Y -> result (custom F S Y)).
  Notation call := (custom_call hook).
  Notation st x := (k_st (u_w x)).

  (** Everything up to the advance of the clock. *)
  Definition before_clock (x : custom F S Y) : result (custom F S Y) :=
    do x <- call (Before Solve) x;
    do x <- call (Start Solve) x;
    do x <- call (Before RouteWater) x;
    do x <- route_water_calls call (p_itermax (u_P x)) x;
    do x <- call (After RouteWater) x;
    do x <- call (Before RouteSediment) x;
    do x <- route_sediment_calls call x;
    do x <- call (After RouteSediment) x;
    do x <- call (Before ApplySubsidence) x;
    do x <- call (Start ApplySubsidence) x;
    do x <- call (Before FinalizeTimestep) x;
    do x <- finalize_timestep_calls call x;
    call (After FinalizeTimestep) x.
  Lemma rbind_assoc {T U V} (r : result T) (f : T -> result U) (g : U -> result V) :
    rbind (rbind r f) g = rbind r (fun x => rbind (f x) g).
  Proof. destruct r; reflexivity. Qed.
  Lemma rbind_ext' {T U} (r : result T) (f g : T -> result U) : (forall x, f x = g x) -> rbind r f = rbind r g.
  Proof. intros H. destruct r; [apply H | reflexivity]. Qed.
  Lemma update_split x : custom_update hook x =
    rbind (before_clock x) (fun x => do x <- call (Do AdvanceClock) x; output_calls call x).
  Proof.
    unfold custom_update, before_clock. cbv zeta. rewrite !rbind_assoc.
    repeat (apply rbind_ext'; intros; rewrite ?rbind_assoc). reflexivity.
  Qed.

  (** ** Parts that leave something alone *)
  Section Leave.
    Context {T : Type} (f : custom F S Y -> T).
    Definition quiet (g : custom F S Y -> result (custom F S Y)) : Prop := forall x x', g x = Ok x' -> f x' = f x.
    Lemma quiet_bind g h : quiet g -> quiet h -> quiet (fun x => do x <- g x; h x).
    Proof. intros Hg Hh x x' E. apply rbind_Ok in E as (y & E1 & E2). rewrite (Hh _ _ E2). exact (Hg _ _ E1). Qed.
    Lemma quiet_then g h : quiet g -> quiet h -> quiet (andthen g h).
    Proof. apply quiet_bind. Qed.

    Context (Hc : forall e, untimed e -> quiet (call e)).
    Local Ltac un := repeat split; discriminate.
    Lemma water_quiet n : forall it, quiet (water_calls call n it).
    Proof.
      induction n as [| n IH]; intros it; cbn [water_calls].
      - intros x x' [=<-]. reflexivity.
      - repeat (apply quiet_then; [apply Hc; un |]). apply IH.
    Qed.
    Lemma before_clock_quiet : quiet before_clock.
    Proof.
      unfold before_clock, route_water_calls, route_sediment_calls, finalize_timestep_calls.
      repeat first [apply Hc; un | apply quiet_bind | apply quiet_then].
      intros x. revert x. intros x x' E.
      apply rbind_Ok in E as (y & E1 & E2). rewrite (water_quiet _ _ _ _ E2). exact (Hc (Start RouteWater) ltac:(un) _ _ E1).
    Qed.
  End Leave.

  (** ** Layout *)
  Lemma call_kinds e : leaves layout hook e -> quiet layout (call e).
  Proof.
    intros H x x' E. unfold custom_call in E. destruct e as [m | m | m | s]; try exact (H _ _ E);
      apply rbind_Ok in E as (w & E1 & E); injection E as <-; apply method_kinds in E1; exact E1.
  Qed.
  Lemma all_quiet {T} (f : custom F S Y -> T) n : (forall e, quiet f (call e)) -> quiet f (custom_updates hook n).
  Proof.
    intros H. induction n as [| n IH]; cbn [custom_updates]; [intros x x' [=<-]; reflexivity |].
    apply quiet_bind; [| exact IH]. intros x x' E. rewrite update_split in E. revert x x' E.
    apply quiet_bind; [apply before_clock_quiet; intros; apply H |]. apply quiet_bind; [apply H |].
    unfold output_calls. repeat (apply quiet_then; [apply H |]). apply H.
  Qed.

  (** ** Schedule *)
  Lemma call_schedule e : leaves schedule hook e -> untimed e -> quiet schedule (call e).
  Proof.
    intros H U x x' E. unfold custom_call in E. destruct e as [m | m | m | s]; try exact (H _ _ E);
      apply rbind_Ok in E as (w & E1 & E); injection E as <-; unfold schedule; cbn [u_P u_w];
      apply method_kept in E1 as (-> & _ & ->); auto.
  Qed.
End Runs.

(** The clock of a model after an update, what it writes and when. *)
Section Tick.
  Context {F : Type} {A : Arith F}.
  Definition counters5 : Type := (F * Z * Z * ext F * ext F)%type.
  Definition limits : Type := (F * F * F * bool)%type.
  (** State of the clock, records (index, time) and checkpoint times. *)
  Definition tick (c : counters5) (l : limits) : counters5 * list (Z * F) * list F :=
    let '(t, it, k, d, q) := c in
    let '(dt, save_dt, check_dt, check) := l in
    let t := fadd t dt in let d := ext_add d dt in let q := ext_add q dt in
    let '(k, d, rs) := if ext_geb d save_dt then (k + 1, Fin (fz 0), [(k, t)]) else (k, d, []) in
    let '(q, cs) := if ext_geb q check_dt && check then (Fin (fz 0), [t]) else (q, []) in
    ((t, it + 1, k, d, q), rs, cs).

  Lemma records_app' {S} (a b : list (output F S)) : records (a ++ b) = records a ++ records b.
  Proof. induction a as [| [k t s | c] a IH]; cbn; rewrite ?IH; reflexivity. Qed.
  Lemma checkpoints_app' {S} (a b : list (output F S)) : checkpoints (a ++ b) = checkpoints a ++ checkpoints b.
  Proof. induction a as [| [k t s | c] a IH]; cbn; rewrite ?IH; reflexivity. Qed.

  Context {S : Type} {G : Rng F S}.
  Lemma write_tick (P : params F) (a : state F S) : let (b, o) := write_output P (advance_clock P a) in
    tick (clock a) (intervals P) = (clock b, records o, checkpoints o).
  Proof.
    unfold write_output, output_data, output_checkpoint, tick, clock, intervals.
    unfold advance_clock at 1. cbn [s_save_time_since_data set_time set_save_time_since_data].
    change (s_save_time_since_data (advance_clock P a)) with (ext_add (s_save_time_since_data a) (p_dt P)).
    destruct (ext_geb (ext_add (s_save_time_since_data a) (p_dt P)) (p_save_dt P)).
    - change (s_save_time_since_checkpoint (set_save_time_since_data (Fin (fz 0)) (set_save_iter (s_save_iter (advance_clock P a) + 1) (advance_clock P a))))
        with (ext_add (s_save_time_since_checkpoint a) (p_dt P)).
      destruct (ext_geb (ext_add (s_save_time_since_checkpoint a) (p_dt P)) (p_checkpoint_dt P) && p_save_checkpoint P); reflexivity.
    - change (s_save_time_since_checkpoint (advance_clock P a)) with (ext_add (s_save_time_since_checkpoint a) (p_dt P)).
      destruct (ext_geb (ext_add (s_save_time_since_checkpoint a) (p_dt P)) (p_checkpoint_dt P) && p_save_checkpoint P); reflexivity.
  Qed.

  (** The library's update. *)
  Lemma library_tick (P : params F) (a b : state F S) o : update P a = Ok (b, o) ->
    tick (clock a) (intervals P) = (clock b, records o, checkpoints o).
  Proof.
    unfold update, solve_water_and_sediment_timestep. intros E. apply rbind_Ok in E as (x & E1 & E).
    apply rbind_Ok in E1 as (y & E0 & E1).
    assert (C1 : clock y = clock a).
    { change (clock a) with (clock (set_eta0 (s_eta a) a)). revert E0. unfold route_water. generalize 0.
      generalize (set_eta0 (s_eta a) a). clear. intros a it. revert a it.
      induction (Z.to_nat (p_itermax P)) as [| n IH]; intros a it E; [injection E as <-; reflexivity |].
      cbn [water_iterations] in E. apply rbind_Ok in E as (x & E1 & E). rewrite (IH _ _ E). clear - E1.
      unfold water_iteration in E1. apply rbind_Ok in E1 as ([[[ps [[qx qy] qw]] wd] s] & _ & E).
      apply rbind_Ok in E as (st1 & E1 & E). injection E as <-. apply surface_kept in E1 as [E1 _]. exact E1. }
    assert (C2 : clock x = clock y).
    { unfold route_sediment in E1. apply rbind_Ok in E1 as (z & E2 & E3).
      apply route_all_kept in E2 as [E2 _]. apply route_all_kept in E3 as [E3 _].
      unfold topo_diffusion in E3. destruct (diffuse_kept P (Z.to_nat (p_N_crossdiff P)) z) as [D _].
      rewrite E3, D. exact E2. }
    assert (C3 : clock (finalize_timestep P (apply_subsidence P x)) = clock a).
    { rewrite <- C1, <- C2. destruct (subsidence_kept P x) as [<- _]. generalize (apply_subsidence P x). intros z.
      unfold finalize_timestep. reflexivity. }
    apply (f_equal (fun r => match r with Ok v => v | Err _ => (b, o) end)) in E. rewrite <- C3.
    pose proof (write_tick P (finalize_timestep P (apply_subsidence P x))) as K. rewrite E in K. exact K.
  Qed.

  Context {Y : Type} (hook : event -> custom F S Y -> result (custom F S Y)).
  Lemma custom_tick (x x' : custom F S Y) : (forall e, leaves schedule hook e) -> custom_update hook x = Ok x' ->
    exists rs cs, tick (clock (k_st (u_w x))) (intervals (u_P x)) = (clock (k_st (u_w x')), rs, cs) /\
      intervals (u_P x') = intervals (u_P x) /\
      records (k_out (u_w x')) = records (k_out (u_w x)) ++ rs /\
      checkpoints (k_out (u_w x')) = checkpoints (k_out (u_w x)) ++ cs.
  Proof.
    intros H E. rewrite update_split in E. apply rbind_Ok in E as (x1 & E1 & E).
    apply (before_clock_quiet hook schedule) in E1; [| intros; apply call_schedule; auto].
    unfold schedule in E1. injection E1 as Q1 Q2 Q3 Q4 Q5 Q6 Q7 Q8 Q9 Q10.
    assert (C : clock (k_st (u_w x)) = clock (k_st (u_w x1))) by (unfold clock; congruence).
    assert (I : intervals (u_P x) = intervals (u_P x1)) by (unfold intervals; congruence).
    rewrite C, I, <- Q10. clear - E H. destruct x1 as [P R [a ps o] y]. cbn [u_P u_R u_w k_st k_out].
    apply rbind_Ok in E as (x2 & E1 & E). unfold custom_call in E1. cbn [constants_of method_effect u_P u_R u_w u_own] in E1.
    unfold with_st in E1. cbn [rbind k_st k_ps k_out] in E1. injection E1 as <-.
    unfold output_calls, andthen in E. apply rbind_Ok in E as (x3 & E3 & E). apply (H _) in E3.
    unfold schedule in E3. cbn [u_P u_w k_st k_out] in E3. injection E3 as R1 R2 R3 R4 R5 R6 R7 R8 R9 R10.
    apply rbind_Ok in E as (x4 & E4 & E). apply rbind_Ok in E as (x5 & E5 & E). apply (H _) in E5.
    unfold schedule in E5. injection E5 as T1 T2 T3 T4 T5 T6 T7 T8 T9 T10.
    destruct x3 as [P3 Q3' [a3 ps3 o3] y3]. destruct x4 as [P4 Q4' [a4 ps4 o4] y4]. destruct x5 as [P5 Q5' [a5 ps5 o5] y5].
    destruct x' as [P6 Q6' [a6 ps6 o6] y6].
    cbn [u_P u_R u_w k_st k_out] in *. subst o3 o5.
    unfold custom_call in E4, E. cbn [constants_of method_effect u_P u_R u_w u_own k_st k_ps k_out] in E4, E.
    unfold tick, clock, intervals.
    unfold output_data in E4. unfold output_checkpoint in E.
    rewrite R4, R7 in E4. unfold advance_clock in R1, R2, R3, R4, R5, E4.
    cbn [s_time s_time_iter s_save_iter s_save_time_since_data s_save_time_since_checkpoint
         set_time set_time_iter set_save_time_since_data set_save_time_since_checkpoint] in R1, R2, R3, R4, R5, E4.
    destruct (ext_geb (ext_add (s_save_time_since_data a) (p_dt P)) (p_save_dt P)) in E4 |- *.
    all: cbn [rbind] in E4; injection E4 as <- _ <- _ <- _.
    all: cbn [s_time s_time_iter s_save_iter s_save_time_since_data s_save_time_since_checkpoint
         set_save_iter set_save_time_since_data] in T1, T2, T3, T4, T5.
    all: rewrite T5, T8, T9, R5, R8, R9 in E.
    all: destruct (ext_geb (ext_add (s_save_time_since_checkpoint a) (p_dt P)) (p_checkpoint_dt P) && p_save_checkpoint P);
      cbn [rbind] in E; injection E as <- _ <- _ <- _; eexists; eexists; (split; [f_equal; f_equal | split; [congruence | rewrite ?records_app', ?checkpoints_app'; cbn [records checkpoints]]]).
    all: try (cbn [s_time s_time_iter s_save_iter s_save_time_since_data s_save_time_since_checkpoint
         set_save_time_since_checkpoint]; congruence).
    all: rewrite ?app_nil_r; unfold save_the_checkpoint; cbn [c_time]; split; congruence.
  Qed.
End Tick.

Section Schedule.
  Context {F : Type} {A : Arith F} {S S' : Type} {G : Rng F S} {G' : Rng F S'} {Y : Type}.
  Context (hook : event -> custom F S Y -> result (custom F S Y)).
  Lemma schedule_run n : (forall e, leaves schedule hook e) ->
    forall (x x' : custom F S Y) (P : params F) (a b : state F S') o,
    custom_updates hook n x = Ok x' -> updates P n a = Ok (b, o) ->
    clock a = clock (k_st (u_w x)) -> intervals P = intervals (u_P x) ->
    clock b = clock (k_st (u_w x')) /\
    records (k_out (u_w x')) = records (k_out (u_w x)) ++ records o /\
    checkpoints (k_out (u_w x')) = checkpoints (k_out (u_w x)) ++ checkpoints o.
  Proof.
    intros H. induction n as [| n IH]; intros x x' P a b o E E' C I.
    - injection E as <-. injection E' as <- <-. cbn. rewrite !app_nil_r. auto.
    - cbn [custom_updates] in E. apply rbind_Ok in E as (x1 & E1 & E).
      cbn [updates] in E'. apply rbind_Ok in E' as ([a1 o1] & E1' & E'). apply rbind_Ok in E' as ([b' o2] & E2' & E').
      injection E' as <- <-.
      destruct (custom_tick hook x x1 H E1) as (rs & cs & T & I1 & R1 & C1).
      apply library_tick in E1'. rewrite C, I in E1'. pose proof (eq_trans (eq_sym E1') T) as K.
      assert (K1 : clock a1 = clock (k_st (u_w x1))) by exact (f_equal (fun t => fst (fst t)) K).
      assert (K2 : records o1 = rs) by exact (f_equal (fun t => snd (fst t)) K).
      assert (K3 : checkpoints o1 = cs) by exact (f_equal snd K).
      destruct (IH x1 x' P a1 b' o2 E E2' K1 (eq_trans I (eq_sym I1))) as (Q1 & Q2 & Q3).
      split; [exact Q1 |]. rewrite Q2, Q3, R1, C1, records_app', checkpoints_app', K2, K3, !app_assoc. auto.
  Qed.
End Schedule.

(** ** Levels at the end of an update *)
Section Levels.
  Context (rnd : R -> R) {HR : Rounding rnd} {S : Type} {G : Rng R S} {Y : Type}.
  Notation A := (RA rnd).
  Context (hook : event -> custom R S Y -> result (custom R S Y)).
  Notation call := (custom_call (A:=A) hook).

  Lemma update_tail (x x' : custom R S Y) : custom_update (A:=A) hook x = Ok x' ->
    exists x0 x1 x2, finalize_timestep_calls call x0 = Ok x1 /\ call (After FinalizeTimestep) x1 = Ok x2 /\
      (do x <- call (Do AdvanceClock) x2; output_calls call x) = Ok x'.
  Proof.
    unfold custom_update. cbv zeta. intros E. do 11 (apply rbind_Ok in E as (? & _ & E)).
    apply rbind_Ok in E as (y1 & E1 & E). apply rbind_Ok in E as (y2 & E2 & E). eauto 6.
  Qed.

  Lemma levels_quiet e : In e late_hooks -> leaves levels hook e -> quiet levels (call e).
  Proof. intros Hi H x x' E. destruct Hi as [<- | [<- | [<- | [<- | []]]]]; exact (H _ _ E). Qed.
  Lemma sandfrac_levels P (a : state R S) : let b := compute_sand_frac (A:=A) P a in
    s_eta b = s_eta a /\ s_stage b = s_stage a /\ s_depth b = s_depth a /\ s_H_SL b = s_H_SL a.
  Proof. repeat split. Qed.
  Lemma levels_sea P (a : state R S) : s_H_SL (finalize_levels (A:=A) P a) = s_H_SL a.
  Proof. reflexivity. Qed.

  Lemma update_settled (x x' : custom R S Y) : (forall e, In e late_hooks -> leaves levels hook e) ->
    custom_update (A:=A) hook x = Ok x' -> exists s0, settled rnd s0 (u_P x') (k_st (u_w x')).
  Proof.
    intros H E. apply update_tail in E as (x0 & x1 & x2 & E1 & E2 & E).
    unfold finalize_timestep_calls, andthen in E1. apply rbind_Ok in E1 as (y0 & F0 & E1).
    apply rbind_Ok in E1 as (y1 & F1 & E1). apply rbind_Ok in E1 as (y2 & F2 & F3).
    unfold output_calls, andthen in E. apply rbind_Ok in E as (z0 & F4 & E).
    apply rbind_Ok in E as (z1 & F5 & E). apply rbind_Ok in E as (z2 & F6 & E). apply rbind_Ok in E as (z3 & F7 & F8).
    assert (Hl : forall e a b, In e late_hooks -> call e a = Ok b -> levels b = levels a)
      by (intros e a b Hi; apply levels_quiet; auto).
    apply Hl in F1; [| cbn; auto]. apply Hl in E2; [| cbn; auto]. apply Hl in F5; [| cbn; auto]. apply Hl in F7; [| cbn; auto 6].
    exists (s_H_SL (k_st (u_w x0))).
    (* after finalize_levels *)
    unfold custom_call in F0. cbn [method_effect] in F0. unfold with_st in F0. cbn [rbind] in F0. injection F0 as <-.
    pose proof (finalize_levels_spec rnd (u_P x0) (k_st (u_w x0))) as (L1 & L2 & L3).
    pose proof (levels_sea (u_P x0) (k_st (u_w x0))) as L4.
    unfold levels in F1. cbn [u_P u_w k_st] in F1.
    revert L1 L2 L3 L4 F1. generalize (finalize_levels (A:=A) (u_P x0) (k_st (u_w x0))). intros a L1 L2 L3 L4 F1.
    injection F1 as A1 A2 A3 A4 A5 A6 A7 A8.
    (* sand fraction *)
    unfold custom_call in F2. cbn [method_effect] in F2. unfold with_st in F2. cbn [rbind] in F2. injection F2 as <-.
    unfold custom_call in F3. cbn [method_effect] in F3. unfold with_st in F3. cbn [rbind constants_of u_P u_R u_w u_own k_st k_ps k_out] in F3.
    injection F3 as <-. destruct (sandfrac_levels (u_P y1) (k_st (u_w y1))) as (B1 & B2 & B3 & B4).
    unfold levels in E2. cbn [u_P u_w k_st] in E2. revert B1 B2 B3 B4 E2.
    generalize (compute_sand_frac (A:=A) (u_P y1) (k_st (u_w y1))). intros b B1 B2 B3 B4 E2.
    cbn [s_eta s_stage s_depth s_H_SL set_H_SL] in E2. injection E2 as C1 C2 C3 C4 C5 C6 C7 C8.
    (* clock *)
    unfold custom_call in F4. cbn [method_effect] in F4. unfold with_st in F4. cbn [rbind] in F4. injection F4 as <-.
    unfold levels in F5. cbn [u_P u_w k_st] in F5. unfold advance_clock in F5.
    cbn [s_eta s_stage s_depth s_H_SL set_time set_time_iter set_save_time_since_data set_save_time_since_checkpoint] in F5.
    injection F5 as D1 D2 D3 D4 D5 D6 D7 D8.
    (* output *)
    assert (O1 : levels z2 = levels z1).
    { clear - F6. unfold custom_call in F6. cbn [method_effect] in F6. unfold output_data in F6.
      destruct (ext_geb _ _) in F6; cbn [rbind] in F6; injection F6 as <-; reflexivity. }
    assert (O2 : levels x' = levels z3).
    { clear - F8. unfold custom_call in F8. cbn [method_effect] in F8. unfold output_checkpoint in F8.
      destruct (_ && _) in F8; cbn [rbind] in F8; injection F8 as <-; reflexivity. }
    unfold levels in O1, O2, F7. injection O1 as G1 G2 G3 G4 G5 G6 G7 G8. injection O2 as I1 I2 I3 I4 I5 I6 I7 I8.
    injection F7 as J1 J2 J3 J4 J5 J6 J7 J8.
    assert (Z1 : s_eta (k_st (u_w x')) = s_eta a) by congruence.
    assert (Z2 : s_stage (k_st (u_w x')) = s_stage a) by congruence.
    assert (Z3 : s_depth (k_st (u_w x')) = s_depth a) by congruence.
    assert (Z5 : p_h0 (u_P x') = p_h0 (u_P x0)) by congruence.
    assert (Z6 : p_inlet (u_P x') = p_inlet (u_P x0)) by congruence.
    assert (Z7 : p_SLR (u_P x') = p_SLR (u_P y1)) by congruence.
    assert (Z8 : p_dt (u_P x') = p_dt (u_P y1)) by congruence.
    assert (Z4 : s_H_SL (k_st (u_w x')) = rnd (s_H_SL (k_st (u_w x0)) + rnd (p_SLR (u_P x') * p_dt (u_P x')))%R).
    { rewrite Z7, Z8, <- L4, <- A4, <- B4. ra_in C4. congruence. }
    constructor.
    - intros i j. rewrite Z2. apply L1.
    - intros i j Hn. rewrite Z1, Z2, Z3. apply L2. unfold inlet_cell in *. rewrite <- Z6. exact Hn.
    - intros i j Hn. rewrite Z1, Z2, Z3, Z5. apply L3. unfold inlet_cell in *. rewrite <- Z6. exact Hn.
    - exact Z4.
  Qed.
  Lemma updates_settled n (x x' : custom R S Y) : (forall e, In e late_hooks -> leaves levels hook e) ->
    custom_updates (A:=A) hook (Datatypes.S n) x = Ok x' -> exists s0, settled rnd s0 (u_P x') (k_st (u_w x')).
  Proof.
    intros H. revert x. induction n as [| n IH]; intros x E.
    - cbn [custom_updates] in E. apply rbind_Ok in E as (x1 & E1 & E). injection E as <-. exact (update_settled x x1 H E1).
    - change (rbind (custom_update (A:=A) hook x) (custom_updates (A:=A) hook (Datatypes.S n)) = Ok x') in E.
      apply rbind_Ok in E as (x1 & _ & E). exact (IH x1 E).
  Qed.
End Levels.

(** ** Changes at the beginning of updates only *)
Section Start.
  Context {F : Type} {A : Arith F} {S : Type} {G : Rng F S} {Y : Type}.
  Context (hook : event -> custom F S Y -> result (custom F S Y)) (Hs : only_at_start hook).
  Notation call := (custom_call hook).
  Definition same_own (e : event) (w : work (F:=F) (S:=S)) (y : Y) : Y := y.
  Definition with_constants (P R : params F) (r : result (work (F:=F) (S:=S) * Y)) : result (custom F S Y) :=
    do p <- r; Ok (mkCustom P R (fst p) (snd p)).

  Lemma call_library P R e w (y : Y) : router_constants R P = P -> e <> Before Solve ->
    call e (mkCustom P R w y) = with_constants P R (hooked_call P (watching same_own) e (w, y)).
  Proof.
    intros HR N. unfold custom_call, hooked_call, with_constants. destruct e as [m | m | m | s].
    - rewrite Hs by exact N. reflexivity.
    - assert (K : constants_of (Start m) (mkCustom P R w y) = P) by (destruct m; try reflexivity; exact HR). rewrite K.
      cbn [u_P u_R u_w u_own fst snd]. destruct (method_effect P (Start m) w); reflexivity.
    - rewrite Hs by discriminate. reflexivity.
    - cbn [constants_of u_P u_R u_w u_own fst snd]. destruct (method_effect P (Do s) w); reflexivity.
  Qed.
  Lemma events_library P R l : router_constants R P = P -> ~ In (Before Solve) l -> forall w (y : Y),
    run_events call l (mkCustom P R w y) = with_constants P R (run_events (hooked_call P (watching same_own)) l (w, y)).
  Proof.
    intros HR. induction l as [| e l IH]; intros N w y; [reflexivity |]. cbn [run_events].
    rewrite call_library; [| exact HR | intros ->; apply N; left; reflexivity].
    destruct (hooked_call P (watching same_own) e (w, y)) as [[w' y'] | r]; cbn [with_constants rbind fst snd]; [| reflexivity].
    apply IH. intros K. apply N. right. exact K.
  Qed.

  Definition after_water_events : list event :=
    [After RouteWater; Before RouteSediment; Start RouteSediment] ++ sed_events ++
    [After RouteSediment; Before ApplySubsidence; Start ApplySubsidence;
     Before FinalizeTimestep; Start FinalizeTimestep; Before ComputeSandFrac; Start ComputeSandFrac;
     Do RaiseSeaLevel; After FinalizeTimestep; Do AdvanceClock] ++ out_events.
  Lemma events_tail n : ~ In (Before Solve) (water_events n 0 ++ after_water_events).
  Proof.
    intros K. apply in_app_or in K as [K | K].
    - revert K. generalize 0. induction n as [| n IH]; intros it K; [exact K |]. cbn [water_events] in K.
      apply in_app_or in K as [K | K]; [| exact (IH _ K)]. cbn in K. repeat destruct K as [K | K]; discriminate || exact K.
    - cbn in K. repeat destruct K as [K | K]; discriminate || exact K.
  Qed.

  Lemma rest_performs x :
    (do x <- call (After RouteWater) x;
     do x <- call (Before RouteSediment) x;
     do x <- route_sediment_calls call x;
     do x <- call (After RouteSediment) x;
     do x <- call (Before ApplySubsidence) x;
     do x <- call (Start ApplySubsidence) x;
     do x <- call (Before FinalizeTimestep) x;
     do x <- finalize_timestep_calls call x;
     do x <- call (After FinalizeTimestep) x;
     do x <- call (Do AdvanceClock) x;
     output_calls call x) = run_events call after_water_events x.
  Proof.
    unfold route_sediment_calls, finalize_timestep_calls, output_calls, andthen, after_water_events, sed_events, out_events.
    cbn [app run_events]. unfold rbind.
    repeat match goal with |- context [match call ?e ?y with _ => _ end] => destruct (call e y); [| reflexivity] end.
    match goal with |- ?a = _ => destruct a; reflexivity end.
  Qed.

  Lemma start_update x : (forall x', hook (Before Solve) x = Ok x' -> routers_match x') -> custom_update hook x =
    do x1 <- hook (Before Solve) x;
    with_constants (u_P x1) (u_R x1) (run_events (hooked_call (u_P x1) (watching same_own)) (update_events (p_itermax (u_P x1)))
      (u_w x1, u_own x1)).
  Proof.
    intros HM. unfold custom_update. cbv zeta. change (call (Before Solve) x) with (hook (Before Solve) x).
    destruct (hook (Before Solve) x) as [[P R w y] | e] eqn:Eh; [| reflexivity]. cbn [rbind u_P u_R u_w u_own].
    assert (HR : router_constants R P = P) by exact (HM _ eq_refl). clear Eh HM.
    unfold update_events. cbn [app]. fold after_water_events.
    change (run_events (hooked_call P (watching same_own)) (Before Solve :: ?l) (w, y))
      with (run_events (hooked_call P (watching same_own)) l (w, y)).
    rewrite <- events_library; [| exact HR |].
    2:{ intros [K | [K | [K | K]]]; try discriminate. exact (events_tail _ K). }
    cbn [run_events]. rewrite (call_library P R (Start Solve) w y HR) by discriminate.
    destruct (hooked_call P (watching same_own) (Start Solve) (w, y)) as [[w1 y1] | e] eqn:E1; cbn [with_constants rbind fst snd]; [| reflexivity].
    rewrite (call_library P R (Before RouteWater) w1 y1 HR) by discriminate.
    destruct (hooked_call P (watching same_own) (Before RouteWater) (w1, y1)) as [[w2 y2] | e] eqn:E2; cbn [with_constants rbind fst snd]; [| reflexivity].
    cbn [u_P]. unfold route_water_calls, andthen. rewrite rbind_assoc.
    destruct (call (Start RouteWater) (mkCustom P R w2 y2)) as [x3 | e]; cbn [rbind]; [| reflexivity].
    rewrite (water_performs call). rewrite run_app.
    destruct (run_events call (water_events (Z.to_nat (p_itermax P)) 0) x3) as [x4 | e]; cbn [rbind]; [| reflexivity].
    apply rest_performs.
  Qed.

  Lemma start_update_library x : (forall x', hook (Before Solve) x = Ok x' -> routers_match x') ->
    match hook (Before Solve) x with
    | Err e => custom_update hook x = Err e
    | Ok x1 =>
        match update (u_P x1) (k_st (u_w x1)) with
        | Err e => custom_update hook x = Err e
        | Ok (st, o) => exists ps, custom_update hook x =
            Ok (mkCustom (u_P x1) (u_R x1) (mkWork st ps (k_out (u_w x1) ++ o)) (u_own x1))
        end
    end.
  Proof.
    intros HM. rewrite (start_update x HM). destruct (hook (Before Solve) x) as [[P R [a ps o] y] | e]; [| reflexivity].
    cbn [rbind u_P u_R u_w u_own k_st k_out].
    pose proof (update_sim P same_own a ps o y) as K. destruct (update P a) as [[b o'] | e].
    - destruct K as (ps' & y' & K). assert (y' = y) as ->.
      { clear - K. revert K. generalize (mkWork a ps o). intros w.
        assert (N : forall l w w' (y y' : Y), run_events (hooked_call P (watching same_own)) l (w, y) = Ok (w', y') -> y' = y).
        { clear. induction l as [| e l IH]; intros w w' y y' E; cbn [run_events] in E; [congruence |].
          destruct (hooked_call P (watching same_own) e (w, y)) as [[w1 y1] | r] eqn:E1; [| discriminate].
          apply IH in E. subst y'. unfold hooked_call, watching, same_own in E1.
          destruct e; try (injection E1 as _ <-; reflexivity); apply rbind_Ok in E1 as (w2 & _ & E1); injection E1 as _ <-; reflexivity. }
        apply N. }
      exists ps'. rewrite K. reflexivity.
    - rewrite K. reflexivity.
  Qed.

  Lemma start_updates (Hr : forall x x', routers_match x -> hook (Before Solve) x = Ok x' -> routers_match x') n :
    forall x x', routers_match x -> custom_updates hook n x = Ok x' ->
    exists l, List.length l = n /\ varying (hook (Before Solve)) x l x'.
  Proof.
    induction n as [| n IH]; intros x x' HM E.
    - injection E as <-. exists []. split; [reflexivity | constructor].
    - cbn [custom_updates] in E. apply rbind_Ok in E as (x2 & E1 & E). pose proof (start_update_library x (fun x' => Hr x x' HM)) as K.
      destruct (hook (Before Solve) x) as [x1 | e] eqn:Eh; [| rewrite K in E1; discriminate].
      destruct (update (u_P x1) (k_st (u_w x1))) as [[b o] | e] eqn:Eu; [| rewrite K in E1; discriminate].
      destruct K as (ps & K). rewrite K in E1. injection E1 as <-. pose proof (Hr _ _ HM Eh) as HM'.
      destruct (fun H => IH _ _ H E) as (l & Hl & Hv); [exact HM' |].
      exists ((u_P x1, k_st (u_w x1), b, o) :: l). split; [cbn; rewrite Hl; reflexivity |].
      econstructor; eauto.
  Qed.
End Start.

(** ** Resuming *)
Section Resuming.
  Context {F : Type} {A : Arith F} {S : Type} {G : Rng F S} {N : Type} {GN : NpRng N} {Y : Type}.
  Context (h : start_hook F S Y) (Inv : params F -> params F -> Y -> Prop)
    (Hi : forall P R y, Inv P R y -> router_constants R P = P)
    (Hk : forall P R v y P' R' v' y', h (P, R, v, y) = Ok (P', R', v', y') -> Inv P R y ->
       Inv P' R' y' /\ p_stepmax P' = p_stepmax P).
  Notation st x := (k_st (u_w x)).
  Notation hook := (starting h).
  Definition kept (x : custom F S Y) : Prop := Inv (u_P x) (u_R x) (u_own x).

  Lemma starting_only : only_at_start (starting (Y:=Y) h).
  Proof. intros e x Hn. unfold starting. destruct (event_eq_dec e (Before Solve)); [contradiction | reflexivity]. Qed.
  Lemma starting_at x : hook (Before Solve) x = do r <- h (u_P x, u_R x, saved_of (st x), u_own x);
      let '(P, R, v, y) := r in Ok (mkCustom P R (mkWork (with_saved v (st x)) (k_ps (u_w x)) (k_out (u_w x))) y).
  Proof. unfold starting. destruct (event_eq_dec (Before Solve) (Before Solve)); [reflexivity | contradiction]. Qed.

  Lemma starting_match x : kept x -> forall x', hook (Before Solve) x = Ok x' -> routers_match x'.
  Proof.
    intros HM x'.
    rewrite starting_at. intros E. apply rbind_Ok in E as ([[[P R] v] y] & E1 & E). injection E as <-. eapply Hi. apply (Hk _ _ _ _ _ _ _ _ E1 HM).
  Qed.

  Lemma forget_saved v (a : state F S) : forget0 (with_saved v a) = with_saved v (forget0 a).
  Proof. reflexivity. Qed.
  Lemma forget_saved_of (a b : state F S) : forget0 a = forget0 b -> saved_of a = saved_of b.
  Proof. intros E. change (saved_of (forget0 a) = saved_of (forget0 b)). rewrite E. reflexivity. Qed.
  Lemma related_stepmax (P P' : params F) (a b : state F S) : p_stepmax P' = p_stepmax P -> related P a b -> related P' a b.
  Proof. intros E [H1 H2]. split; [exact H1 |]. unfold widths in *. rewrite E. exact H2. Qed.
  Lemma related_saved (P : params F) v (a b : state F S) : related P a b -> related P (with_saved v a) (with_saved v b).
  Proof. intros [H1 H2]. split; [rewrite !forget_saved, H1; reflexivity | exact H2]. Qed.
  Lemma related_point (P : params F) (a b : state F S) : related P a b -> same_point a b.
  Proof.
    intros H. pose proof (updates_alike P 0 0 a b H) as K. cbn in K. apply K.
  Qed.

  Lemma starting_alike x y : kept x -> kept y -> related (u_P x) (st x) (st y) ->
    h (u_P y, u_R y, saved_of (st x), u_own y) = h (u_P x, u_R x, saved_of (st x), u_own x) ->
    alike (fun x' y' => kept x' /\ related (u_P x') (st x') (st y') /\ u_P y' = u_P x' /\ u_R y' = u_R x' /\ u_own y' = u_own x')
      (custom_update hook x) (custom_update hook y).
  Proof.
    intros HM HN HR Hh. pose proof (start_update_library hook starting_only x (starting_match x HM)) as K1.
    pose proof (start_update_library hook starting_only y (starting_match y HN)) as K2. rewrite starting_at in K1, K2.
    pose proof (forget_saved_of _ _ (proj1 HR)) as Hv. rewrite <- Hv, Hh in K2.
    destruct (h (u_P x, u_R x, saved_of (st x), u_own x)) as [[[[P R] v] z] | e] eqn:Eh; cbn [rbind u_P u_R u_w k_st u_own k_out] in K1, K2.
    2:{ rewrite K1, K2. reflexivity. }
    pose proof (Hk _ _ _ _ _ _ _ _ Eh HM) as [HM' Hs].
    assert (HR' : related P (with_saved v (st x)) (with_saved v (st y))).
    { apply related_saved. eapply related_stepmax; [exact Hs | exact HR]. }
    pose proof (update_alike P 0 _ _ HR') as K.
    destruct (update P (with_saved v (st x))) as [[a oa] | e].
    - destruct (update P (with_saved v (st y))) as [[b ob] | e]; [| destruct K].
      destruct K1 as (ps1 & K1). destruct K2 as (ps2 & K2). rewrite K1, K2. cbn [alike u_P u_R u_w k_st u_own].
      destruct K as (J1 & J2 & _). cbn [fst] in J1, J2. split; [exact HM' |]. split; [| auto].
      split; [apply forget10, forget21, J1 | exact J2].
    - destruct (update P (with_saved v (st y))) as [[b ob] | e']; [destruct K |]. rewrite K1, K2. exact K.
  Qed.
  Lemma starting_alikes n : forall x y, kept x -> kept y -> related (u_P x) (st x) (st y) ->
    h (u_P y, u_R y, saved_of (st x), u_own y) = h (u_P x, u_R x, saved_of (st x), u_own x) ->
    alike (fun x' y' => same_point (st x') (st y') /\ ((0 < n)%nat -> u_P y' = u_P x' /\ u_R y' = u_R x' /\ u_own y' = u_own x'))
      (custom_updates hook n x) (custom_updates hook n y).
  Proof.
    induction n as [| n IH]; intros x y HM HN HR Hh.
    - split; [eapply related_point; eauto | lia].
    - cbn [custom_updates]. eapply alike_rbind; [apply starting_alike; eauto |].
      intros x1 y1 _ _ (R0 & R1 & R2 & R3 & R4).
      eapply alike_mono; [| apply IH; [exact R0 | unfold kept; rewrite R2, R3, R4; exact R0 | exact R1 | rewrite R2, R3, R4; reflexivity]].
      intros x2 y2 E2 E3 [J1 J2]. split; [exact J1 |]. intros _. destruct n as [| n]; [| apply J2; lia].
      injection E2 as <-. injection E3 as <-. auto.
  Qed.

  Lemma saved_descends P v (a : state F S) : descends P a (with_saved v a).
  Proof. constructor; [reflexivity | repeat split | apply wider_refl]. Qed.
  Lemma descends_stepmax (P P' : params F) (a b : state F S) : p_stepmax P' = p_stepmax P -> descends P' a b -> descends P a b.
  Proof. intros E [H1 H2 H3]. constructor; [exact H1 | exact H2 |]. unfold SessionProofs.wider in *. rewrite <- E. exact H3. Qed.
  Lemma starting_descends n : forall x x', kept x -> custom_updates hook n x = Ok x' ->
    kept x' /\ p_stepmax (u_P x') = p_stepmax (u_P x) /\ descends (u_P x) (st x) (st x').
  Proof.
    induction n as [| n IH]; intros x x' HM E.
    - injection E as <-. split; [exact HM |]. split; [reflexivity |]. constructor; [reflexivity | repeat split | apply wider_refl].
    - cbn [custom_updates] in E. apply rbind_Ok in E as (x1 & E1 & E).
      pose proof (start_update_library hook starting_only x (starting_match x HM)) as K. rewrite starting_at in K.
      destruct (h (u_P x, u_R x, saved_of (st x), u_own x)) as [[[[P R] v] z] | e] eqn:Eh; cbn [rbind u_P u_R u_w k_st u_own k_out] in K;
        [| rewrite K in E1; discriminate].
      pose proof (Hk _ _ _ _ _ _ _ _ Eh HM) as [HM' Es]. clear Eh. rename Es into Eh. destruct (update P (with_saved v (st x))) as [[a oa] | e] eqn:Eu; [| rewrite K in E1; discriminate].
      destruct K as (ps & K). rewrite K in E1. injection E1 as <-.
      apply (fun H => IH _ _ H E) in HM' as (J0 & J1 & J2). cbn [u_P u_w k_st] in J1, J2.
      split; [exact J0 |]. split; [congruence |]. eapply descends_trans; [apply (saved_descends _ v) |].
      eapply descends_stepmax; [exact Eh |]. eapply descends_trans; [eapply update_descends; exact Eu |].
      eapply descends_stepmax; [| exact J2]. reflexivity.
  Qed.

  Lemma starting_resume (c : inputs F) nb (np : N) (m : model (F:=F) S) np' st1 o0 ps y0 k x nb' np2 missing r np3 y1 :
    construct (G:=G) (GN:=GN) c nb np = Ok (m, np') -> write_output (m_P m) (m_st m) = (st1, o0) ->
    custom_updates hook k (mkCustom (m_P m) (m_P m) (mkWork st1 ps o0) y0) = Ok x ->
    resume (GN:=GN) c (save_the_checkpoint (st x)) missing nb' np2 = Ok (r, np3) ->
    Inv (m_P m) (m_P m) y0 -> Inv (m_P r) (m_P r) y1 ->
    h (m_P r, m_P r, saved_of (st x), y1) = h (u_P x, u_R x, saved_of (st x), u_own x) ->
    forall n ps' o', alike (fun x' y' => same_point (st x') (st y') /\ ((0 < n)%nat -> u_P y' = u_P x' /\ u_R y' = u_R x' /\ u_own y' = u_own x'))
      (custom_updates hook n x) (custom_updates hook n (mkCustom (m_P r) (m_P r) (mkWork (m_st r) ps' o') y1)).
  Proof.
    intros Ec Ew Eu Er HM HN' Hh n ps' o'.
    pose proof (starting_descends _ _ _ (HM : kept (mkCustom (m_P m) (m_P m) (mkWork st1 ps o0) y0)) Eu) as (HN & Hs & HD). cbn [u_P u_w k_st] in Hs, HD.
    destruct (construct_other c nb np m np' Ec) as [_ HC].
    destruct (HC nb' np2) as (m2 & np4 & s & E3 & HP & Hst & Hfin).
    pose proof (construct_fresh c nb np m np' Ec) as (_ & _ & _ & _ & _ & Hw & _).
    unfold resume in Er. rewrite E3 in Er. cbn [rbind] in Er. rewrite Hst in Er. apply rbind_Ok in Er as (st' & El & Er).
    injection Er as <- <-. cbn [m_P m_st] in *.
    assert (HR : related (m_P m) (st x) st').
    { eapply load_related; [| exact Hw | exact El]. eapply descends_trans; [eapply write_descends; exact Ew | exact HD]. }
    apply starting_alikes; cbn [u_P u_w k_st u_own]; [exact HN | exact HN' | | exact Hh].
    eapply related_stepmax; [exact Hs | exact HR].
  Qed.
End Resuming.

(** ** Routers that are never built again *)
Section Stale.
  Context {F : Type} {A : Arith F} {S : Type} {G : Rng F S} {Y : Type}.
  Context (hook : event -> custom F S Y -> result (custom F S Y)).
  Lemma routers_stay n : (forall e, leaves u_R hook e) -> forall x x',
    custom_updates hook n x = Ok x' -> u_R x' = u_R x.
  Proof.
    intros H. apply (all_quiet hook u_R). intros e x x' E. unfold custom_call in E.
    destruct e as [m | m | m | s]; try exact (H _ _ _ E); apply rbind_Ok in E as (w & _ & E); injection E as <-; reflexivity.
  Qed.
End Stale.

(** ** The class with a changing bedload fraction *)
Section Bedload.
  Context (rnd : R -> R) {HR : Rounding rnd}.
  Notation A := (RA rnd).
  Context {S : Type} {G : Rng R S} {N : Type} {GN : NpRng N}.
  Context (t1 t2 : R).
  Notation st x := (k_st (u_w x)).
  Notation h := (variable_bedload (A:=A) (S:=S) t1 t2).

  Fixpoint mirrors (n : nat) (P : params R) : result (params R) :=
    match n with O => Ok P | Datatypes.S n' => do P' <- mirror_bedload (A:=A) P; mirrors n' P' end.
  Definition b2n (b : bool) : nat := if b then 1%nat else 0%nat.
  Lemma mirrors_app a b P : mirrors (a + b) P = do P' <- mirrors a P; mirrors b P'.
  Proof.
    revert P. induction a as [| a IH]; intros P; [reflexivity |]. cbn [mirrors Nat.add].
    destruct (mirror_bedload (A:=A) P); [apply IH | reflexivity].
  Qed.
  Definition done (t : R) (v : saved_part R S) (b : bool) : bool := b || Rltb t (v_time v).
  Lemma switch_spec t v b (P : params R) : switch (A:=A) t v b P =
    do P' <- mirrors (b2n (done t v b) - b2n b) P; Ok (P', done t v b).
  Proof.
    unfold switch, done. change (fltb (Arith:=A)) with Rltb.
    destruct b; [reflexivity |]. cbn [negb andb orb]. destruct (Rltb t (v_time v)); [| reflexivity].
    cbn [b2n Nat.sub mirrors]. destruct (mirror_bedload (A:=A) P); reflexivity.
  Qed.
  Lemma bedload_spec (P R : params R) v c b : h (P, R, v, (c, b)) =
    do P' <- mirrors ((b2n (done t1 v c) - b2n c) + (b2n (done t2 v b) - b2n b)) P; Ok (P', R, v, (done t1 v c, done t2 v b)).
  Proof.
    unfold variable_bedload. rewrite switch_spec, mirrors_app.
    destruct (mirrors (b2n (done t1 v c) - b2n c) P) as [P1 | e]; cbn [rbind]; [| reflexivity].
    rewrite switch_spec. destruct (mirrors (b2n (done t2 v b) - b2n b) P1) as [P2 | e]; reflexivity.
  Qed.
  Lemma bedload_from (P0 P R : params R) v c b : mirrors (b2n c + b2n b) P0 = Ok P ->
    (c = true -> t1 < v_time v)%R -> (b = true -> t2 < v_time v)%R ->
    h (P, R, v, (c, b)) = h (P0, R, v, (false, false)).
  Proof.
    intros E Hc Hb. rewrite !bedload_spec.
    assert (Dc : done t1 v c = done t1 v false).
    { unfold done. destruct c; [| reflexivity]. destruct (Rltb_spec t1 (v_time v)); [reflexivity | destruct n; apply Hc; reflexivity]. }
    assert (Db : done t2 v b = done t2 v false).
    { unfold done. destruct b; [| reflexivity]. destruct (Rltb_spec t2 (v_time v)); [reflexivity | destruct n; apply Hb; reflexivity]. }
    assert (Kc : (b2n c <= b2n (done t1 v c))%nat) by (unfold done; destruct c, (Rltb t1 (v_time v)); cbn; lia).
    assert (Kb : (b2n b <= b2n (done t2 v b))%nat) by (unfold done; destruct b, (Rltb t2 (v_time v)); cbn; lia).
    rewrite <- Dc, <- Db. cbn [b2n]. rewrite !Nat.sub_0_r.
    replace (b2n (done t1 v c) + b2n (done t2 v b))%nat with
      ((b2n c + b2n b) + (b2n (done t1 v c) - b2n c + (b2n (done t2 v b) - b2n b)))%nat by lia.
    rewrite (mirrors_app (b2n c + b2n b)), E. reflexivity.
  Qed.

  Lemma mirrors_keep n : forall P P', mirrors n P = Ok P' -> exists x, P' = setp_f_bedload x P.
  Proof.
    induction n as [| n IH]; intros P P' E.
    - injection E as <-. exists (p_f_bedload P). destruct P; reflexivity.
    - cbn [mirrors] in E. apply rbind_Ok in E as (P1 & E1 & E). unfold mirror_bedload in E1.
      match type of E1 with (if ?c then _ else _) = _ => destruct c; [discriminate |] end. injection E1 as <-.
      apply IH in E as (x & ->). exists x. reflexivity.
  Qed.
  Lemma bedload_keeps : keeps_routers h.
  Proof.
    intros P R v [c b] P' R' v' y' E HM. rewrite bedload_spec in E. apply rbind_Ok in E as (P1 & E1 & E).
    injection E as <- <- _ _. apply mirrors_keep in E1 as (x & ->). split; [| reflexivity].
    transitivity (setp_f_bedload x (router_constants R P)); [reflexivity | rewrite HM; reflexivity].
  Qed.

  (** What holds along a run of the class. *)
  Record bedload_run (P0 : params R) (x : custom R S (bool * bool)) : Prop := {
    br_routers : u_R x = P0;
    br_mirrors : mirrors (b2n (fst (u_own x)) + b2n (snd (u_own x))) P0 = Ok (u_P x);
    br_changed : fst (u_own x) = true -> (t1 < s_time (st x))%R;
    br_back : snd (u_own x) = true -> (t2 < s_time (st x))%R;
    br_clock : rnd (s_time (st x)) = s_time (st x)
  }.
  Lemma saved_self (a : state R S) : s_time (with_saved (saved_of a) a) = s_time a. Proof. reflexivity. Qed.
  Lemma bedload_step (P0 : params R) x x' : (0 <= p_dt P0)%R -> router_constants P0 P0 = P0 ->
    custom_update (A:=A) (starting h) x = Ok x' -> bedload_run P0 x -> bedload_run P0 x'.
  Proof.
    intros Hdt H0 E [B1 B2 B3 B4 B5]. destruct (mirrors_keep _ _ _ B2) as (f & Bf).
    assert (HM : routers_match x).
    { unfold routers_match. rewrite B1, Bf. transitivity (setp_f_bedload f (router_constants P0 P0)); [reflexivity | rewrite H0; reflexivity]. }
    pose proof (start_update_library (A:=A) (starting h) (starting_only h) x
      (starting_match h _ (fun _ _ _ H => H) bedload_keeps x HM)) as K.
    rewrite starting_at in K. destruct (u_own x) as [c b] eqn:Ey. cbn [fst snd] in *.
    rewrite (bedload_from P0 (u_P x) (u_R x) (saved_of (st x)) c b B2 B3 B4) in K.
    rewrite bedload_spec in K. cbn [b2n] in K. rewrite !Nat.sub_0_r in K.
    destruct (mirrors (b2n (done t1 (saved_of (st x)) false) + b2n (done t2 (saved_of (st x)) false)) P0) as [P1 | e] eqn:E1;
      cbn [rbind u_P u_R u_w k_st u_own k_out] in K; [| rewrite K in E; discriminate].
    destruct (update (A:=A) P1 (with_saved (saved_of (st x)) (st x))) as [[a o] | e] eqn:Eu; [| rewrite K in E; discriminate].
    destruct K as (ps & K). rewrite K in E. injection E as <-.
    destruct (mirrors_keep _ _ _ E1) as (f1 & ->).
    apply update_frame in Eu as (_ & _ & _ & _ & _ & _ & Et & _). rewrite saved_self in Et.
    change (s_time a = rnd (s_time (st x) + p_dt P0)%R) in Et.
    assert (Hle : (s_time (st x) <= s_time a)%R) by (rewrite Et, <- B5 at 1; apply rnd_mono; lra).
    constructor; cbn [u_R u_own u_P u_w k_st fst snd].
    - exact B1.
    - exact E1.
    - unfold done. cbn [orb saved_of v_time]. destruct (Rltb_spec t1 (s_time (st x))); [intros _; lra | discriminate].
    - unfold done. cbn [orb saved_of v_time]. destruct (Rltb_spec t2 (s_time (st x))); [intros _; lra | discriminate].
    - rewrite Et. apply rnd_idem.
  Qed.
  Lemma bedload_runs (P0 : params R) n : (0 <= p_dt P0)%R -> router_constants P0 P0 = P0 -> forall x x',
    custom_updates (A:=A) (starting h) n x = Ok x' -> bedload_run P0 x -> bedload_run P0 x'.
  Proof.
    intros Hdt H0. induction n as [| n IH]; intros x x' E B; [injection E as <-; exact B |].
    cbn [custom_updates] in E. apply rbind_Ok in E as (x1 & E1 & E). eapply IH; [exact E |]. eapply bedload_step; eauto.
  Qed.

  Lemma bedload_resume (c : inputs R) nb (np : N) (m : model (F:=R) S) np' st1 o0 ps k x nb' np2 missing r np3 :
    construct (A:=A) (G:=G) (GN:=GN) c nb np = Ok (m, np') -> write_output (A:=A) (m_P m) (m_st m) = (st1, o0) ->
    (0 <= p_dt (m_P m))%R ->
    custom_updates (A:=A) (starting h) k (mkCustom (m_P m) (m_P m) (mkWork st1 ps o0) (false, false)) = Ok x ->
    resume (A:=A) (GN:=GN) c (save_the_checkpoint (st x)) missing nb' np2 = Ok (r, np3) ->
    forall n ps' o', alike (fun x' y' => same_point (st x') (st y') /\
        ((0 < n)%nat -> u_P y' = u_P x' /\ u_R y' = u_R x' /\ u_own y' = u_own x'))
      (custom_updates (A:=A) (starting h) n x)
      (custom_updates (A:=A) (starting h) n (mkCustom (m_P r) (m_P r) (mkWork (m_st r) ps' o') (false, false))).
  Proof.
    intros Ec Ew Hdt Eu Er. eapply (starting_resume (A:=A) h _ (fun _ _ _ H => H) bedload_keeps);
      [exact Ec | exact Ew | exact Eu | exact Er | destruct (m_P m); reflexivity | destruct (m_P r); reflexivity |].
    assert (H0 : router_constants (m_P m) (m_P m) = m_P m) by (destruct (m_P m); reflexivity).
    pose proof (construct_fresh (A:=A) c nb np m np' Ec) as (_ & _ & _ & _ & Ht & _).
    assert (B : bedload_run (m_P m) x).
    { eapply bedload_runs; [exact Hdt | exact H0 | exact Eu |]. constructor; cbn [u_R u_own u_P u_w k_st fst snd]; try discriminate; try reflexivity.
      apply write_output_same in Ew. apply same_fields in Ew. decompose [and] Ew.
      replace (s_time st1) with (s_time (m_st m)) by congruence. rewrite Ht. ra. apply rnd_idem. }
    assert (HP : m_P r = m_P m).
    { unfold resume in Er. destruct (construct_other (A:=A) c nb np m np' Ec) as [_ HC].
      destruct (HC nb' np2) as (m2 & np4 & s & E3 & HP & _ & _). rewrite E3 in Er. cbn [rbind] in Er.
      apply rbind_Ok in Er as (st' & _ & Er). injection Er as <- _. exact HP. }
    rewrite HP. destruct B as [B1 B2 B3 B4 _]. rewrite <- B1 at 2. destruct (u_own x) as [cc b]. cbn [fst snd] in *.
    symmetry. apply bedload_from; assumption.
  Qed.
End Bedload.

(** ** The class with a changing velocity *)
Section Velocity.
  Context {F : Type} {A : Arith F} {S : Type} {G : Rng F S} {N : Type} {GN : NpRng N}.
  Context (u : F -> F).
  Notation st x := (k_st (u_w x)).
  Notation h := (variable_velocity_rebuilt (S:=S) u).
  Definition conditions (inp : inputs F) (P : params F) : result (params F) :=
    create_boundary_conditions inp (setp_u0 (i_u0 inp) P).
  Definition limit_on_steps (inp : inputs F) (P : params F) : Z :=
    match i_stepmax inp with None => 2 * (p_L P + p_W P) | Some x => ftrunc x end.

  Lemma conditions_again (i1 : inputs F) (P P1 : params F) : p_f_bedload_router P = p_f_bedload P ->
    conditions i1 P = Ok P1 ->
    (forall i2, conditions i2 (init_sediment_routers P1) = conditions i2 P) /\
    p_stepmax P1 = limit_on_steps i1 P /\ p_L P1 = p_L P /\ p_W P1 = p_W P.
  Proof.
    intros HB E. unfold conditions, create_boundary_conditions in E.
    repeat match type of E with rbind ?p _ = Ok _ => apply rbind_Ok in E as (? & _ & E) end.
    destruct P. cbn in HB. subst. injection E as <-. repeat split; reflexivity.
  Qed.

  (** The constants are those of the configuration but for the velocity. *)
  Definition of_config (c : inputs F) (P0 P R : params F) (inp : inputs F) : Prop :=
    R = P /\ p_f_bedload_router P = p_f_bedload P /\ (forall i, conditions i P = conditions i P0) /\
    (forall x, seti_u0 x inp = seti_u0 x c) /\
    p_stepmax P = limit_on_steps c P0 /\ p_L P = p_L P0 /\ p_W P = p_W P0.
  Lemma self_routers (P : params F) : router_constants P P = P. Proof. destruct P; reflexivity. Qed.
  Lemma of_config_kept c P0 P R v y P' R' v' y' : h (P, R, v, y) = Ok (P', R', v', y') -> of_config c P0 P R y ->
    of_config c P0 P' R' y' /\ p_stepmax P' = p_stepmax P.
  Proof.
    intros E (H1 & H2 & H3 & H4 & H5 & H6 & H7). unfold variable_velocity_rebuilt, variable_velocity in E.
    fold (conditions (seti_u0 (u (v_time v)) y) P) in E.
    apply rbind_Ok in E as ([[[P1 R1] v1] y1] & E1 & E). apply rbind_Ok in E1 as (P2 & E1 & E2).
    injection E2 as -> _ _ <-. injection E as <- <- _ <-.
    destruct (conditions_again _ _ _ H2 E1) as (K1 & K2 & K3 & K4).
    assert (Hs : p_stepmax P1 = limit_on_steps c P0).
    { rewrite K2. unfold limit_on_steps. rewrite H6, H7. specialize (H4 (u (v_time v))).
      apply (f_equal i_stepmax) in H4. rewrite H4. reflexivity. }
    split; [| transitivity (p_stepmax P1); [reflexivity | congruence]]. split; [reflexivity |]. split; [reflexivity |].
    split; [intros i; rewrite K1; apply H3 |].
    split; [intros x; specialize (H4 x); rewrite <- H4; reflexivity |]. split; [exact Hs |]. split.
    - transitivity (p_L P1); [reflexivity | congruence].
    - transitivity (p_W P1); [reflexivity | congruence].
  Qed.

  Lemma same_conditions c P0 P R v y P2 R2 y2 : of_config c P0 P R y -> of_config c P0 P2 R2 y2 -> h (P, R, v, y) = h (P2, R2, v, y2).
  Proof.
    intros (H1 & H2 & H3 & H4 & _) (K1 & K2 & K3 & K4 & _). unfold variable_velocity_rebuilt, variable_velocity.
    rewrite H4, K4. fold (conditions (seti_u0 (u (v_time v)) c) P). fold (conditions (seti_u0 (u (v_time v)) c) P2).
    rewrite H3, K3. destruct (conditions _ P0); reflexivity.
  Qed.

  (** The attributes the class starts with. *)
  Definition attributes (m : model (F:=F) S) : inputs F := seti_seed None (m_in m).
  Lemma fresh_config (c : inputs F) nb (np : N) (m : model (F:=F) S) np' nb2 np2 m2 np3 :
    construct (G:=G) (GN:=GN) c nb np = Ok (m, np') -> construct (G:=G) (GN:=GN) c nb2 np2 = Ok (m2, np3) ->
    m_P m2 = m_P m /\ of_config (attributes m) (m_P m) (m_P m) (m_P m) (attributes m) /\
    of_config (attributes m) (m_P m) (m_P m2) (m_P m2) (attributes m2).
  Proof.
    intros E E'. destruct (construct_other c nb np m np' E) as [_ HC].
    destruct (HC nb2 np2) as (m3 & np4 & s & E3 & HP & _ & _). rewrite E3 in E'. injection E' as -> ->. clear HC.
    split; [exact HP |]. rewrite HP.
    assert (A1 : attributes m2 = attributes m).
    { clear HP. unfold attributes, construct in *. apply rbind_Ok in E as (c' & E1 & E). rewrite E1 in E3. cbn [rbind] in E3.
      destruct (seed_of (G:=G) (GN:=GN) c' np) as (z & K). rewrite K in E. clear K.
      destruct (seed_of (G:=G) (GN:=GN) c' np2) as (z2 & K). rewrite K in E3. clear K.
      apply rbind_Ok in E as (P & _ & E). apply rbind_Ok in E as ([P' st'] & _ & E).
      apply rbind_Ok in E3 as (P2 & _ & E3). apply rbind_Ok in E3 as ([P2' st2'] & _ & E3).
      apply (f_equal (fun r => match r with Ok (m, _) => Some (m_in m) | Err _ => None end)) in E, E3.
      cbn [m_in] in E, E3. injection E as E. injection E3 as E3. rewrite <- E, <- E3. reflexivity. }
    rewrite A1. clear E3 HP A1 m2 np3 s.
    enough (K : of_config (attributes m) (m_P m) (m_P m) (m_P m) (attributes m)) by (split; exact K).
    unfold construct in E. apply rbind_Ok in E as (c' & _ & E).
    destruct (seed_of (G:=G) (GN:=GN) c' np) as (z & K). rewrite K in E. clear K.
    apply rbind_Ok in E as (P & E2 & E). apply rbind_Ok in E as ([P' st'] & E4 & E).
    assert (Hs : p_stepmax P = limit_on_steps c' P).
    { unfold create_boundary_conditions in E2. do 8 (apply rbind_Ok in E2 as (? & _ & E2)). injection E2 as <-. reflexivity. }
    clear E2. unfold create_domain in E4. destruct (size_indices P <? 0); [discriminate |].
    apply okay_inj in E4. apply (f_equal fst) in E4. cbn [fst] in E4.
    apply okay_inj in E. apply (f_equal fst) in E. cbn [fst] in E. subst m. unfold attributes. cbn [m_P m_in].
    assert (Hs' : p_stepmax P' = limit_on_steps c' P') by (subst P'; exact Hs). clear E4 Hs.
    unfold of_config. split; [reflexivity |]. unfold init_subsidence. destruct (p_toggle_subsidence (init_sediment_routers P')).
    all: split; [reflexivity |]; split; [reflexivity |]; split; [reflexivity |]; split; [exact Hs' |]; split; reflexivity.
  Qed.

  Lemma velocity_resume (c : inputs F) nb (np : N) (m : model (F:=F) S) np' st1 o0 ps k x nb' np2 missing r np3 :
    construct (G:=G) (GN:=GN) c nb np = Ok (m, np') -> write_output (m_P m) (m_st m) = (st1, o0) ->
    custom_updates (starting h) k (mkCustom (m_P m) (m_P m) (mkWork st1 ps o0) (attributes m)) = Ok x ->
    resume (GN:=GN) c (save_the_checkpoint (st x)) missing nb' np2 = Ok (r, np3) ->
    forall n ps' o', alike (fun x' y' => same_point (st x') (st y') /\
        ((0 < n)%nat -> u_P y' = u_P x' /\ u_R y' = u_R x' /\ u_own y' = u_own x'))
      (custom_updates (starting h) n x)
      (custom_updates (starting h) n (mkCustom (m_P r) (m_P r) (mkWork (m_st r) ps' o') (attributes r))).
  Proof.
    intros Ec Ew Eu Er.
    assert (R1 : exists m2 np4, construct (G:=G) (GN:=GN) c nb' np2 = Ok (m2, np4) /\ m_P r = m_P m2 /\ attributes r = attributes m2).
    { unfold resume in Er. apply rbind_Ok in Er as ([m2 np4] & E1 & Er). apply rbind_Ok in Er as (st' & _ & Er).
      apply okay_inj in Er. apply (f_equal fst) in Er. cbn [fst] in Er. subst r. exists m2, np4. auto. }
    destruct R1 as (m2 & np4 & E2 & HP & HA). destruct (fresh_config c nb np m np' nb' np2 m2 np4 Ec E2) as (_ & C1 & C2).
    rewrite <- HP, <- HA in C2.
    assert (Hi : forall P R y, of_config (attributes m) (m_P m) P R y -> router_constants R P = P)
      by (intros P R y (-> & _); apply self_routers).
    eapply (starting_resume h (of_config (attributes m) (m_P m)) Hi (of_config_kept _ _));
      [exact Ec | exact Ew | exact Eu | exact Er | exact C1 | exact C2 |].
    eapply same_conditions; [exact C2 |].
    destruct (fun H => starting_descends h _ Hi (of_config_kept _ _) _ _ _ H Eu) as (K & _); [exact C1 | exact K].
  Qed.
End Velocity.

(** ** Classes that cannot fail *)
Section Total.
  Notation XA := (RA (fun x => x)).
  Context {S : Type} {G : Rng R S} {Y : Type} (h : start_hook R S Y).
  Notation st x := (k_st (u_w x)).
  Definition harmless (Inv : params R -> params R -> Y -> Prop) : Prop :=
    forall P Q v y, Inv P Q y -> exists P' Q' v' y', h (P, Q, v, y) = Ok (P', Q', v', y') /\
      Inv P' Q' y' /\ router_constants Q' P' = P' /\ forall s : state R S, model_ready P s -> model_ready P' s.
  Lemma ready_saved (P : params R) v (s : state R S) : model_ready P s -> model_ready P (with_saved v s).
  Proof. intros (H1 & H2 & H3). split; [destruct H1; constructor; assumption |]. split; [destruct H2; constructor; assumption | exact H3]. Qed.
  Lemma saved_finite v (s : state R S) : finite_since s -> finite_since (with_saved v s).
  Proof. intros H. exact H. Qed.
  Lemma custom_total Inv n : harmless Inv -> uniform_range G -> (forall s, 0 < fst (draw s))%R -> forall x,
    Inv (u_P x) (u_R x) (u_own x) -> model_ready (u_P x) (st x) -> finite_since (st x) ->
    exists x', custom_updates (A:=XA) (starting h) n x = Ok x' /\ model_ready (u_P x') (st x') /\ Inv (u_P x') (u_R x') (u_own x') /\
      finite_since (st x').
  Proof.
    intros Hh HG Hu. induction n as [| n IH]; intros x HI HR HF; [exists x; auto |].
    destruct (Hh _ _ (saved_of (st x)) _ HI) as (P & R' & v & y & E & HI' & HM & HR').
    pose proof (start_update_library (A:=XA) (starting h) (starting_only h) x) as K. rewrite starting_at, E in K.
    cbn [rbind] in K.
    assert (HM' : forall x', Ok (mkCustom P R' (mkWork (with_saved v (st x)) (k_ps (u_w x)) (k_out (u_w x))) y) = Ok x' -> routers_match x').
    { intros x' Ex. injection Ex as <-. exact HM. }
    specialize (K HM'). cbn [u_P u_R u_w k_st u_own k_out] in K.
    destruct (update_total P (with_saved v (st x)) (ready_saved _ _ _ (HR' _ HR)) HG Hu) as (a & o & Ea & Ra).
    rewrite Ea in K. destruct K as (ps & K). cbn [custom_updates]. rewrite K. cbn [rbind]. apply IH; [assumption | assumption |].
    eapply update_finite; [exact Ea |]. apply saved_finite, HF.
  Qed.
End Total.

(** ** Hooks that agree on the calls made *)
Section Agree.
  Context {X : Type} (c1 c2 : event -> X -> result X).
  Lemma events_agree l : (forall e, In e l -> forall x, c1 e x = c2 e x) -> forall x, run_events c1 l x = run_events c2 l x.
  Proof.
    induction l as [| e l IH]; intros H x; [reflexivity |]. cbn [run_events]. rewrite (H e (or_introl eq_refl)).
    destruct (c2 e x); [apply IH; intros; apply H; right; assumption | reflexivity].
  Qed.
End Agree.
Section LateGeneric.
  Context {X : Type} (c1 c2 : event -> X -> result X) (it : X -> Z).
  Definition chain (call : event -> X -> result X) (x : X) : result X :=
    do x <- call (Before Solve) x;
    do x <- call (Start Solve) x;
    do x <- call (Before RouteWater) x;
    do x <- route_water_calls call (it x) x;
    do x <- call (After RouteWater) x;
    do x <- call (Before RouteSediment) x;
    do x <- route_sediment_calls call x;
    do x <- call (After RouteSediment) x;
    do x <- call (Before ApplySubsidence) x;
    do x <- call (Start ApplySubsidence) x;
    do x <- call (Before FinalizeTimestep) x;
    do x <- finalize_timestep_calls call x;
    do x <- call (After FinalizeTimestep) x;
    do x <- call (Do AdvanceClock) x;
    output_calls call x.
  Definition ending (call : event -> X -> result X) (y : X) : result X :=
    do x <- call (After FinalizeTimestep) y; do x <- call (Do AdvanceClock) x; output_calls call x.
  Lemma late_generic (Ag : forall e, e <> After FinalizeTimestep -> forall y, c2 e y = c1 e y)
    (Tl : forall y, exists x2, ending c2 y = Ok x2) x x' :
    chain c1 x = Ok x' -> exists y x2, ending c1 y = Ok x' /\ ending c2 y = Ok x2 /\ chain c2 x = Ok x2.
  Proof.
    intros E. unfold chain in *.
    do 3 (rewrite Ag by discriminate; apply rbind_Ok in E as (? & E1 & E); rewrite E1; cbn [rbind]; clear E1).
    apply rbind_Ok in E as (? & E1 & E).
    assert (W : forall n y, route_water_calls c2 n y = route_water_calls c1 n y).
    { intros n y. unfold route_water_calls, andthen. rewrite Ag by discriminate. destruct (c1 (Start RouteWater) y); [| reflexivity].
      cbn [rbind]. rewrite !(water_performs _). apply events_agree. intros e He. apply Ag. intros ->.
      assert (K := water_inside (Z.to_nat n) 0). rewrite Forall_forall in K. exact (K _ He). }
    rewrite W, E1. cbn [rbind]. clear E1.
    do 2 (rewrite Ag by discriminate; apply rbind_Ok in E as (? & E1 & E); rewrite E1; cbn [rbind]; clear E1).
    apply rbind_Ok in E as (? & E1 & E).
    assert (D : forall y, route_sediment_calls c2 y = route_sediment_calls c1 y).
    { intros y. rewrite !(sed_performs _). apply events_agree. intros e He. apply Ag. intros ->.
      cbn in He. repeat destruct He as [He | He]; discriminate || contradiction. }
    rewrite D, E1. cbn [rbind]. clear E1.
    do 4 (rewrite Ag by discriminate; apply rbind_Ok in E as (? & E1 & E); rewrite E1; cbn [rbind]; clear E1).
    apply rbind_Ok in E as (y & E1 & E). unfold finalize_timestep_calls, andthen in *. apply rbind_Ok in E1 as (? & E2 & E1).
    rewrite Ag, E2 by discriminate. cbn [rbind]. clear E2.
    do 2 (apply rbind_Ok in E1 as (? & E2 & E1); rewrite Ag, E2 by discriminate; cbn [rbind]; clear E2).
    rewrite Ag, E1 by discriminate. cbn [rbind]. destruct (Tl y) as (w2 & T). exists y, w2. split; [exact E |]. split; exact T.
  Qed.
End LateGeneric.
Section Late.
  Context {F : Type} {A : Arith F} {S : Type} {G : Rng F S} {Y : Type}.
  (** A hook after finalize_timestep only. *)
  Definition at_end (f : custom F S Y -> custom F S Y) (e : event) (x : custom F S Y) : result (custom F S Y) :=
    if event_eq_dec e (After FinalizeTimestep) then Ok (f x) else Ok x.
  Lemma late_agree f g e : e <> After FinalizeTimestep -> forall y, custom_call (at_end f) e y = custom_call (at_end g) e y.
  Proof.
    intros He y. unfold custom_call, at_end. destruct e as [m | m | m | s]; try reflexivity.
    destruct (event_eq_dec (After m) (After FinalizeTimestep)); [contradiction | reflexivity].
  Qed.
  Lemma end_ok f e y : In e [After FinalizeTimestep; Do AdvanceClock; Before OutputData; Start OutputData; Before OutputCheckpoint; Start OutputCheckpoint] ->
    exists y', custom_call (at_end f) e y = Ok y'.
  Proof.
    intros [<- | [<- | [<- | [<- | [<- | [<- | []]]]]]]; unfold custom_call, at_end.
    - destruct (event_eq_dec _ _); eexists; reflexivity.
    - eexists. reflexivity.
    - destruct (event_eq_dec _ _); eexists; reflexivity.
    - cbn [method_effect]. destruct (output_data _ _). eexists. reflexivity.
    - destruct (event_eq_dec _ _); eexists; reflexivity.
    - cbn [method_effect]. destruct (output_checkpoint _ _). eexists. reflexivity.
  Qed.
  Lemma end_total f y : exists x2, ending (custom_call (at_end f)) y = Ok x2.
  Proof.
    unfold ending, output_calls, andthen. pose proof (end_ok f) as K. revert K. generalize (custom_call (at_end f)). intros c K.
    destruct (K (After FinalizeTimestep) y) as (y1 & ->); [cbn; tauto |]. cbn [rbind].
    destruct (K (Do AdvanceClock) y1) as (y2 & ->); [cbn; tauto |]. cbn [rbind].
    destruct (K (Before OutputData) y2) as (y3 & ->); [cbn; tauto |]. cbn [rbind].
    destruct (K (Start OutputData) y3) as (y4 & ->); [cbn; tauto |]. cbn [rbind].
    destruct (K (Before OutputCheckpoint) y4) as (y5 & ->); [cbn; tauto |]. cbn [rbind].
    apply K. cbn. tauto.
  Qed.
  Lemma end_fields f y x2 : ending (custom_call (at_end f)) y = Ok x2 ->
    s_eta (k_st (u_w x2)) = s_eta (k_st (u_w (f y))) /\ s_stage (k_st (u_w x2)) = s_stage (k_st (u_w (f y))) /\
    s_depth (k_st (u_w x2)) = s_depth (k_st (u_w (f y))) /\ u_P x2 = u_P (f y).
  Proof.
    intros E. set (T := fun x : custom F S Y => (s_eta (k_st (u_w x)), s_stage (k_st (u_w x)), s_depth (k_st (u_w x)), u_P x)).
    enough (K : T x2 = T (f y)) by (unfold T in K; injection K as K1 K2 K3 K4; auto).
    assert (Q : forall e a b, In e [Do AdvanceClock; Before OutputData; Start OutputData; Before OutputCheckpoint; Start OutputCheckpoint] ->
      custom_call (at_end f) e a = Ok b -> T b = T a).
    { intros e a b [<- | [<- | [<- | [<- | [<- | []]]]]]; unfold custom_call, at_end.
      - intros H. apply rbind_Ok in H as (w & H1 & H). injection H as <-. cbn in H1. injection H1 as <-. reflexivity.
      - destruct (event_eq_dec _ _); [discriminate |]. intros [=<-]. reflexivity.
      - cbn [method_effect]. unfold output_data. destruct (ext_geb _ _); intros [=<-]; reflexivity.
      - destruct (event_eq_dec _ _); [discriminate |]. intros [=<-]. reflexivity.
      - cbn [method_effect]. unfold output_checkpoint. destruct (_ && _); intros [=<-]; reflexivity. }
    unfold ending, output_calls, andthen in E. apply rbind_Ok in E as (y1 & E1 & E).
    assert (E1' : y1 = f y).
    { unfold custom_call, at_end in E1. destruct (event_eq_dec _ _); [injection E1 as <-; reflexivity | contradiction]. }
    subst y1. clear E1. revert Q E. generalize (custom_call (at_end f)). intros c Q E.
    apply rbind_Ok in E as (y2 & E2 & E). apply Q in E2; [| cbn; tauto].
    do 3 (let H := fresh in apply rbind_Ok in E as (? & H & E); apply Q in H; [| cbn; tauto]). apply Q in E; [| cbn; tauto]. congruence.
  Qed.
  Lemma late_total f g x x' : custom_update (at_end g) x = Ok x' ->
    exists y x2, ending (custom_call (at_end g)) y = Ok x' /\ ending (custom_call (at_end f)) y = Ok x2 /\ custom_update (at_end f) x = Ok x2.
  Proof.
    intros E. exact (late_generic (custom_call (at_end g)) (custom_call (at_end f)) (fun x => p_itermax (u_P x))
      (late_agree f g) (end_total f) x x' E).
  Qed.
End Late.
