(** Property C87: classes derived from the model class. *)
From Coq Require Import ZArith List Bool Reals Lra Lia Psatz String.
From Flocq Require Import Core.
From Verif Require Import Base RLemmas SharedSpec Shared Params State Water WaterSpec Sed SedSpec RunProofs Iter IterSpec FrameProofs IterProofs
  Examples Inputs Init InitSpec InitProofs Session SessionSpec ResumeProofs SessionProofs BranchProofs Hooks HookSpec HookProofs
  Diffusion ScenarioProofs Props_Iter Props_Init Props_Session Props_Branch Custom CustomSpec CustomProofs.
Import ListNotations.
Local Open Scope Z_scope.

(** ** C87 *)
(** Whatever the hooks of a class do, as long as those called after the levels
    of a step are settled leave the levels alone: after every update the depth
    is that of bed and stage, the stage is nowhere below the sea level of the
    step, the inlet has its depth and the sea has risen. *)
Theorem C87_end_of_step :
  forall (rnd : R -> R), Rounding rnd -> forall (S Y : Type) (G : Rng R S)
    (hook : event -> custom R S Y -> result (custom R S Y)) n (x x' : custom R S Y),
    (forall e, In e late_hooks -> leaves levels hook e) ->
    custom_updates (A:=RA rnd) hook (Datatypes.S n) x = Ok x' ->
    exists s0, settled rnd s0 (u_P x') (k_st (u_w x')).
Proof. intros rnd HR S Y G hook n x x'. exact (updates_settled rnd hook n x x'). Qed.
Print Assumptions C87_end_of_step.

(** Whatever they do to everything else: hooks that leave clock and schedule
    alone do not change when records and checkpoints are written. *)
Theorem C87_schedule :
  forall (F : Type) (A : Arith F) (S S' Y : Type) (G : Rng F S) (G' : Rng F S')
    (hook : event -> custom F S Y -> result (custom F S Y)) n (x x' : custom F S Y) (P : params F) (a b : state F S') o,
    (forall e, leaves schedule hook e) ->
    custom_updates hook n x = Ok x' -> updates P n a = Ok (b, o) ->
    clock a = clock (k_st (u_w x)) -> intervals P = intervals (u_P x) ->
    clock b = clock (k_st (u_w x')) /\
    records (k_out (u_w x')) = records (k_out (u_w x)) ++ records o /\
    checkpoints (k_out (u_w x')) = checkpoints (k_out (u_w x)) ++ checkpoints o.
Proof. intros F A S S' Y G G' hook n x x' P a b o H. exact (schedule_run hook n H x x' P a b o). Qed.
Print Assumptions C87_schedule.

(** Only hooks change the kinds of cells and the modifiers. *)
Theorem C87_layout :
  forall (F : Type) (A : Arith F) (S Y : Type) (G : Rng F S)
    (hook : event -> custom F S Y -> result (custom F S Y)) n (x x' : custom F S Y),
    (forall e, leaves layout hook e) -> custom_updates hook n x = Ok x' -> layout x' = layout x.
Proof.
  intros F A S Y G hook n x x' H. apply (all_quiet hook layout). intros e. apply call_kinds. apply H.
Qed.
Print Assumptions C87_layout.

(** Changes made at the beginning of updates: each update is the library's,
    with the constants and fields the class chose for it, as long as the
    routers have the constants of the model. *)
Theorem C87_changes_between_updates :
  forall (F : Type) (A : Arith F) (S Y : Type) (G : Rng F S)
    (hook : event -> custom F S Y -> result (custom F S Y)) n (x x' : custom F S Y),
    only_at_start hook ->
    (forall a b, routers_match a -> hook (Before Solve) a = Ok b -> routers_match b) ->
    routers_match x -> custom_updates hook n x = Ok x' ->
    exists l, List.length l = n /\ varying (hook (Before Solve)) x l x'.
Proof. intros F A S Y G hook n x x' H Hr. exact (start_updates hook H Hr n x x'). Qed.
Print Assumptions C87_changes_between_updates.

(** A class whose changes at the beginning of an update follow from the saved
    fields goes on from a checkpoint as if it had not been interrupted. *)
Theorem C87_resume :
  forall (F : Type) (A : Arith F) (S N Y : Type) (G : Rng F S) (GN : NpRng N) (h : start_hook F S Y)
    (c : inputs F) nb (np : N) m np' st1 o0 ps y0 k x nb' np2 missing r np3 y1,
    keeps_routers h ->
    construct (G:=G) (GN:=GN) c nb np = Ok (m, np') -> write_output (m_P m) (m_st m) = (st1, o0) ->
    custom_updates (starting h) k (mkCustom (m_P m) (m_P m) (mkWork st1 ps o0) y0) = Ok x ->
    resume (GN:=GN) c (save_the_checkpoint (k_st (u_w x))) missing nb' np2 = Ok (r, np3) ->
    h (m_P r, m_P r, saved_of (k_st (u_w x)), y1) = h (u_P x, u_R x, saved_of (k_st (u_w x)), u_own x) ->
    forall n ps' o', alike (fun a b => same_point (k_st (u_w a)) (k_st (u_w b)) /\
        ((0 < n)%nat -> u_P b = u_P a /\ u_R b = u_R a /\ u_own b = u_own a))
      (custom_updates (starting h) n x)
      (custom_updates (starting h) n (mkCustom (m_P r) (m_P r) (mkWork (m_st r) ps' o') y1)).
Proof.
  intros F A S N Y G GN h c nb np m np' st1 o0 ps y0 k x nb' np2 missing r np3 y1 Hk Ec Ew Eu Er Hh.
  eapply (starting_resume h _ (fun _ _ _ H => H) Hk); [exact Ec | exact Ew | exact Eu | exact Er | | | exact Hh].
  - destruct (m_P m); reflexivity.
  - destruct (m_P r); reflexivity.
Qed.
Print Assumptions C87_resume.

(** So does the documented class that switches the bedload fraction at two
    times, although its switches are not saved. *)
Theorem C87_bedload_class_resumes :
  forall (rnd : R -> R), Rounding rnd -> forall (S N : Type) (G : Rng R S) (GN : NpRng N) (t1 t2 : R)
    (c : inputs R) nb (np : N) m np' st1 o0 ps k x nb' np2 missing r np3,
    let h := variable_bedload (A:=RA rnd) (S:=S) t1 t2 in
    construct (A:=RA rnd) (G:=G) (GN:=GN) c nb np = Ok (m, np') -> write_output (A:=RA rnd) (m_P m) (m_st m) = (st1, o0) ->
    (0 <= p_dt (m_P m))%R ->
    custom_updates (A:=RA rnd) (starting h) k (mkCustom (m_P m) (m_P m) (mkWork st1 ps o0) (false, false)) = Ok x ->
    resume (A:=RA rnd) (GN:=GN) c (save_the_checkpoint (k_st (u_w x))) missing nb' np2 = Ok (r, np3) ->
    forall n ps' o', alike (fun a b => same_point (k_st (u_w a)) (k_st (u_w b)) /\
        ((0 < n)%nat -> u_P b = u_P a /\ u_R b = u_R a /\ u_own b = u_own a))
      (custom_updates (A:=RA rnd) (starting h) n x)
      (custom_updates (A:=RA rnd) (starting h) n (mkCustom (m_P r) (m_P r) (mkWork (m_st r) ps' o') (false, false))).
Proof.
  intros rnd HR S N G GN t1 t2 c nb np m np' st1 o0 ps k x nb' np2 missing r np3 h.
  exact (bedload_resume rnd t1 t2 c nb np m np' st1 o0 ps k x nb' np2 missing r np3).
Qed.
Print Assumptions C87_bedload_class_resumes.

(** And the documented class with a changing velocity, if it builds the
    routers again. *)
Theorem C87_velocity_class_resumes :
  forall (F : Type) (A : Arith F) (S N : Type) (G : Rng F S) (GN : NpRng N) (u : F -> F)
    (c : inputs F) nb (np : N) m np' st1 o0 ps k x nb' np2 missing r np3,
    let h := variable_velocity_rebuilt (S:=S) u in
    let own (m : model S) := seti_seed None (m_in m) in
    construct (G:=G) (GN:=GN) c nb np = Ok (m, np') -> write_output (m_P m) (m_st m) = (st1, o0) ->
    custom_updates (starting h) k (mkCustom (m_P m) (m_P m) (mkWork st1 ps o0) (own m)) = Ok x ->
    resume (GN:=GN) c (save_the_checkpoint (k_st (u_w x))) missing nb' np2 = Ok (r, np3) ->
    forall n ps' o', alike (fun a b => same_point (k_st (u_w a)) (k_st (u_w b)) /\
        ((0 < n)%nat -> u_P b = u_P a /\ u_R b = u_R a /\ u_own b = u_own a))
      (custom_updates (starting h) n x)
      (custom_updates (starting h) n (mkCustom (m_P r) (m_P r) (mkWork (m_st r) ps' o') (own r))).
Proof.
  intros F A S N G GN u c nb np m np' st1 o0 ps k x nb' np2 missing r np3 h own.
  exact (velocity_resume u c nb np m np' st1 o0 ps k x nb' np2 missing r np3).
Qed.
Print Assumptions C87_velocity_class_resumes.

(** Routers keep the constants they were built with until a hook builds them
    again. *)
Theorem C87_routers_keep_their_constants :
  forall (F : Type) (A : Arith F) (S Y : Type) (G : Rng F S)
    (hook : event -> custom F S Y -> result (custom F S Y)) n (x x' : custom F S Y),
    (forall e, leaves u_R hook e) -> custom_updates hook n x = Ok x' -> u_R x' = u_R x.
Proof. intros F A S Y G hook n x x' H. exact (routers_stay hook n H x x'). Qed.
Print Assumptions C87_routers_keep_their_constants.

(** Sand and mud are routed with the constants of the routers, whatever those
    of the model have become; building the routers again gives them those of
    the model and its bedload fraction. *)
Theorem C87_sediment_has_the_constants_of_the_routers :
  forall (F : Type) (A : Arith F) (S Y : Type) (G : Rng F S)
    (hook : event -> custom F S Y -> result (custom F S Y)) (x : custom F S Y),
    (forall m g, (m, g) = (RouteSand, Sand) \/ (m, g) = (RouteMud, Mud) ->
       exists Q, routed_with (u_R x) (u_P x) Q /\
         custom_call hook (Start m) x =
         (do st <- route_all_parcels Q g (k_st (u_w x));
          Ok (mkCustom (u_P x) (u_R x) (mkWork st (k_ps (u_w x)) (k_out (u_w x))) (u_own x)))) /\
    (let R := u_R (rebuild_routers x) in
     routed_with (u_P x) (u_P x) (setp_f_bedload_router (p_f_bedload_router (u_P x)) R) /\
     p_f_bedload_router R = p_f_bedload (u_P x)).
Proof.
  intros F A S Y G hook [P R [st ps o] y]. split.
  - intros m g [H|H]; injection H as -> ->; exists (router_constants R P);
      (split; [repeat split|]); unfold custom_call, method_effect, with_st; cbn [constants_of u_R u_P u_w u_own k_st k_ps k_out];
      destruct (route_all_parcels _ _ _); reflexivity.
  - split; [repeat split|reflexivity].
Qed.
Print Assumptions C87_sediment_has_the_constants_of_the_routers.
(** A model whose velocity was doubled and whose routers were not built again:
    they still have the old velocity. *)
Example C87_old_routers :
  exists Q, routed_with (exP (A:=RX)) (setp_u0 2%R (exP (A:=RX))) Q /\ p_u0 Q = 1%R /\ Q <> setp_u0 2%R (exP (A:=RX)).
Proof.
  exists (exP (A:=RX)). split; [repeat split|]. split; [reflexivity|].
  intros H. apply (f_equal p_u0) in H. cbn in H. lra.
Qed.

(** The deprecated names: a class that defines the hook of an old name is
    refused, and the old methods perform the calls of the new ones but for
    their own hooks. *)
Theorem C87_old_names :
  (forall defined, check_deprecated_hooks defined = Ok tt <->
     ~ In "hook_sed_route"%string defined /\ ~ In "hook_run_one_timestep"%string defined) /\
  (forall defined e, check_deprecated_hooks defined = Err e -> e = AttributeError) /\
  (forall itermax, exists l,
     (forall (X : Type) (call : event -> X -> result X) x, run_one_timestep_calls call itermax x = run_events call l x) /\
     ~ In (Before Solve) l /\ exists r, update_order itermax = methods l ++ r /\ In (Start ApplySubsidence) r) /\
  (exists l,
     (forall (X : Type) (call : event -> X -> result X) x, sed_route_calls call x = run_events call l x) /\
     ~ In (Before RouteSediment) l /\
     methods l = [Start RouteSediment; Start InitSedimentIteration; Start RouteSand; Start TopoDiffusion; Start RouteMud]).
Proof.
  assert (In_spec : forall n l, existsb (String.eqb n) l = true <-> In n l).
  { intros n l. rewrite existsb_exists. split.
    - intros (y & Hy & E). apply String.eqb_eq in E. subst y. exact Hy.
    - intros H. exists n. split; [exact H | apply String.eqb_refl]. }
  split; [| split; [| split]].
  - intros defined. unfold check_deprecated_hooks, deprecated_names. cbn [existsb].
    destruct (existsb (String.eqb "hook_sed_route") defined) eqn:E1.
    + apply In_spec in E1. split; [discriminate | intros [H _]; contradiction].
    + destruct (existsb (String.eqb "hook_run_one_timestep") defined) eqn:E2.
      * apply In_spec in E2. split; [discriminate | intros [_ H]; contradiction].
      * split; [intros _ | reflexivity].
        split; intros H; apply In_spec in H; congruence.
  - intros defined e. unfold check_deprecated_hooks.
    match goal with |- (if ?b then _ else _) = _ -> _ => destruct b end; congruence.
  - intros itermax. set (n := Z.to_nat itermax).
    exists ([Start Solve; Before RouteWater; Start RouteWater] ++ water_events n 0 ++
      [After RouteWater; Before RouteSediment; Start RouteSediment] ++ sed_events ++ [After RouteSediment]).
    split; [| split].
    + intros X call x. unfold run_one_timestep_calls, solve_calls, route_water_calls, andthen. cbn [app run_events].
      unfold rbind. destruct (call (Start Solve) x) as [x1 |]; [| reflexivity].
      destruct (call (Before RouteWater) x1) as [x2 |]; [| reflexivity].
      destruct (call (Start RouteWater) x2) as [x3 |]; [| reflexivity].
      rewrite (water_performs call), run_app. fold n. destruct (run_events call (water_events n 0) x3) as [x4 |]; [| reflexivity].
      unfold route_sediment_calls, sed_events, andthen, rbind. cbn [rbind app run_events].
      repeat match goal with |- context [match call ?e ?y with _ => _ end] => destruct (call e y); [| reflexivity] end. reflexivity.
    + intros K. cbn [app] in K. destruct K as [K | [K | [K | K]]]; try discriminate.
      pose proof (events_tail n) as T. apply T. apply in_app_or in K as [K | K]; apply in_or_app; [left; exact K |].
      right. unfold after_water_events. cbn in K |- *. repeat destruct K as [K | K]; try discriminate; try contradiction.
    + exists [Start ApplySubsidence; Start FinalizeTimestep; Start ComputeSandFrac; Do RaiseSeaLevel; Do AdvanceClock;
        Start OutputData; Start OutputCheckpoint]. split; [| left; reflexivity].
      rewrite <- update_methods. unfold update_events, methods. fold n. cbn [app filter]. rewrite !filter_app. cbn [filter app].
      rewrite <- !app_assoc. reflexivity.
  - exists (Start RouteSediment :: sed_events). split; [intros X call; apply sed_performs |]. split.
    + cbn. intros K. repeat destruct K as [K | K]; discriminate || contradiction.
    + reflexivity.
Qed.
Print Assumptions C87_old_names.

(** ** Classes meeting the hypotheses *)
Section Example.
  Notation XA := (RA (fun x => x)).
  Notation st x := (k_st (u_w x)).
  Existing Instance half_rng. Existing Instance count_rng.
  (** A class on the example configuration: constructed, its first output
      written, updated [k] times, saved and resumed. *)
  Lemma ex_class {Y} (h : start_hook R unit Y) (Inv : params R -> params R -> params R -> Y -> Prop) (y0 : model (F:=R) unit -> Y) k :
    (forall m np', construct (A:=XA) (exI (A:=XA)) tt 0 = Ok (m, np') ->
       harmless h (Inv (m_P m)) /\ Inv (m_P m) (m_P m) (m_P m) (y0 m)) ->
    exists m np' st1 o0 x r np3,
      construct (A:=XA) (exI (A:=XA)) tt 0 = Ok (m, np') /\ write_output (A:=XA) (m_P m) (m_st m) = (st1, o0) /\
      custom_updates (A:=XA) (starting h) k (mkCustom (m_P m) (m_P m) (mkWork st1 [] o0) (y0 m)) = Ok x /\
      resume (A:=XA) (exI (A:=XA)) (save_the_checkpoint (st x)) false tt 5 = Ok (r, np3) /\
      m_P r = m_P m /\ Inv (m_P m) (u_P x) (u_R x) (u_own x) /\ model_ready (u_P x) (st x) /\ finite_since (st x).
  Proof.
    intros Hh. destruct (runnable_ready (exI (A:=RX)) tt 0 exI_runnable) as (m & np' & E & Hr).
    change RX with XA in *. destruct (Hh _ _ E) as [H1 H2].
    destruct (write_output (A:=XA) (m_P m) (m_st m)) as [st1 o0] eqn:Ew.
    pose proof (write_ready _ _ _ _ Ew Hr) as Hr1.
    pose proof (output_finite (A:=XA) (m_P m) (m_st m) (or_introl eq_refl)) as Hf. rewrite Ew in Hf. cbn [fst] in Hf.
    destruct (custom_total h (Inv (m_P m)) k H1 half_rng_range half_rng_pos
      (mkCustom (m_P m) (m_P m) (mkWork st1 [] o0) (y0 m)) H2 Hr1 Hf) as (x & Ex & Rx & Ix & Fx).
    destruct (construct_other (A:=XA) (exI (A:=XA)) tt 0 m np' E) as [_ K]. destruct (K tt 5) as (m2 & np3 & s & E2 & HP & _).
    assert (L : exists st', load_checkpoint (A:=XA) (save_the_checkpoint (st x)) false (m_st m2) = Ok st').
    { destruct Fx as [t Ft]. unfold load_checkpoint. cbn [c_save_time_since_data save_the_checkpoint]. rewrite Ft. eexists. reflexivity. }
    destruct L as (st' & L).
    exists m, np', st1, o0, x, (mkModel (m_in m2) (m_P m2) st' (m_finalized m2)), np3.
    split; [exact E |]. split; [exact Ew |]. split; [exact Ex |].
    split; [unfold resume; rewrite E2; cbn [rbind]; rewrite L; reflexivity |].
    split; [exact HP |]. auto.
  Qed.
  Lemma ready_SLR (s : R) (P : params R) (a : state R unit) : model_ready P a -> model_ready (setp_SLR s P) a.
  Proof. intros (H1 & H2 & H3). split; [destruct H1; constructor; assumption |]. split; [destruct H2; constructor; assumption | destruct H3; constructor; assumption]. Qed.
  Lemma ready_bedload (f : R) (P : params R) (a : state R unit) : model_ready P a -> model_ready (setp_f_bedload f P) a.
  Proof. intros (H1 & H2 & H3). split; [destruct H1; constructor; assumption |]. split; [destruct H2; constructor; assumption | destruct H3; constructor; assumption]. Qed.

  (** A class that lets the sea rise at a rate that grows with time and raises
      the bed by a metre before each update. *)
  Definition rising : start_hook R unit unit :=
    fun '(P, Q, v, y) =>
      let P' := setp_SLR (v_time v / 1000000000)%R P in
      Ok (P', P', mkSaved (v_time v) (v_time_iter v) (fun i j => v_eta v i j + 1)%R (v_depth v) (v_stage v) (v_uw v) (v_ux v) (v_uy v)
        (v_qw v) (v_qx v) (v_qy v) (v_sand_frac v) (v_active_layer v) (v_H_SL v) (v_rng v), y).
  Definition rising_inv (P0 P Q : params R) (y : unit) : Prop := exists s, P = setp_SLR s P0 /\ (Q = P \/ Q = P0).
  Lemma rising_harmless P0 : harmless rising (rising_inv P0).
  Proof.
    intros P Q v y (s & -> & _). do 4 eexists. split; [reflexivity |]. split; [| split].
    - exists (v_time v / 1000000000)%R. split; [destruct P0; reflexivity | left; reflexivity].
    - apply self_routers.
    - intros a. apply ready_SLR.
  Qed.
  Lemma rising_leaves {T} (f : custom R unit unit -> T) : leaves f (starting rising) (Before Solve) -> forall e, leaves f (starting rising) e.
  Proof.
    intros H e. destruct (event_eq_dec e (Before Solve)) as [-> | He]; [exact H |].
    intros x x' E. unfold starting in E. destruct (event_eq_dec e (Before Solve)); [contradiction |]. injection E as <-. reflexivity.
  Qed.

  Example C87_class : forall k, exists m np' st1 o0 x r np3,
    let hook := starting rising in let x0 := mkCustom (m_P m) (m_P m) (mkWork st1 [] o0) tt in
    (forall e, In e late_hooks -> leaves levels hook e) /\ (forall e, leaves schedule hook e) /\ (forall e, leaves layout hook e) /\
    only_at_start hook /\ keeps_routers rising /\
    (forall a b, routers_match a -> hook (Before Solve) a = Ok b -> routers_match b) /\ routers_match x0 /\
    construct (A:=XA) (exI (A:=XA)) tt 0 = Ok (m, np') /\ write_output (A:=XA) (m_P m) (m_st m) = (st1, o0) /\
    custom_updates (A:=XA) hook k x0 = Ok x /\
    (exists b o, updates (A:=XA) (m_P m) k st1 = Ok (b, o)) /\
    resume (A:=XA) (exI (A:=XA)) (save_the_checkpoint (st x)) false tt 5 = Ok (r, np3) /\
    rising (m_P r, m_P r, saved_of (st x), tt) = rising (u_P x, u_R x, saved_of (st x), u_own x) /\
    (exists x', custom_updates (A:=XA) hook 2 x = Ok x').
  Proof.
    intros k. destruct (ex_class rising rising_inv (fun _ => tt) k) as (m & np' & st1 & o0 & x & r & np3 & E1 & E2 & E3 & E4 & HP & HI & HR & HF).
    { intros m np' E. split; [apply rising_harmless |]. exists (p_SLR (m_P m)). split; [destruct (m_P m); reflexivity | right; reflexivity]. }
    exists m, np', st1, o0, x, r, np3. cbn zeta.
    split; [intros e He a b E; unfold starting in E; destruct (event_eq_dec e (Before Solve)) as [-> | _];
      [cbn in He; repeat destruct He as [He | He]; try discriminate; contradiction | injection E as <-; reflexivity] |].
    split; [apply rising_leaves; intros a b E; cbn in E; injection E as <-; destruct a; reflexivity |].
    split; [apply rising_leaves; intros a b E; cbn in E; injection E as <-; destruct a; reflexivity |].
    split; [apply starting_only |].
    split; [intros P Q v y P' Q' v' y' E _; cbn in E; apply okay_inj in E; pose proof (f_equal (fun z => fst (fst (fst z))) E) as K1;
      pose proof (f_equal (fun z => snd (fst (fst z))) E) as K2; cbn in K1, K2; rewrite <- K1, <- K2; split; [apply self_routers | reflexivity] |].
    split; [intros a b _ E; cbn in E; injection E as <-; apply self_routers |].
    split; [apply self_routers |].
    split; [exact E1 |]. split; [exact E2 |]. split; [exact E3 |].
    split.
    { destruct (runnable_ready (exI (A:=RX)) tt 0 exI_runnable) as (m2 & np2 & E & Hr). change RX with XA in *.
      rewrite E1 in E. apply okay_inj in E. apply (f_equal fst) in E. cbn [fst] in E. subst m2.
      destruct (updates_total (m_P m) k st1 (write_ready _ _ _ _ E2 Hr) half_rng_range half_rng_pos) as (b & o & Eu & _). eauto. }
    split; [exact E4 |]. split.
    { rewrite HP. destruct HI as (s & HU & _). rewrite HU. destruct (u_own x). destruct (m_P m). reflexivity. }
    destruct (custom_total rising (rising_inv (m_P m)) 2 (rising_harmless _) half_rng_range half_rng_pos x HI HR HF) as (x' & Ex & _). eauto.
  Qed.

  (** The bedload class, switching after 20000 s and after 50000 s. *)
  Definition bed_inv (P0 P Q : params R) (y : bool * bool) : Prop :=
    Q = P0 /\ exists f, (0 <= f <= 1)%R /\ P = setp_f_bedload f P0.
  Lemma bed_harmless P0 : harmless (variable_bedload (A:=XA) (S:=unit) 20000%R 50000%R) (bed_inv P0).
  Proof.
    assert (M : forall f, (0 <= f <= 1)%R -> mirror_bedload (A:=XA) (setp_f_bedload f P0) = Ok (setp_f_bedload (1 - f)%R P0)).
    { intros f Hf. unfold mirror_bedload. ra. cbn [p_f_bedload setp_f_bedload].
      destruct (Rltb_spec (1 - f) 0); [lra |]. destruct (Rltb_spec 1 (1 - f)); [lra |]. destruct P0; reflexivity. }
    assert (W : forall t v b f, (0 <= f <= 1)%R -> exists f' b', (0 <= f' <= 1)%R /\
      switch (A:=XA) (S:=unit) t v b (setp_f_bedload f P0) = Ok (setp_f_bedload f' P0, b')).
    { intros t v b f Hf. unfold switch. destruct (negb b && _).
      - rewrite M by exact Hf. cbn [rbind]. exists (1 - f)%R, true. split; [lra | reflexivity].
      - exists f, b. split; [exact Hf | reflexivity]. }
    intros P Q v [c b] (-> & f & Hf & ->). unfold variable_bedload.
    destruct (W 20000%R v c f Hf) as (f1 & c' & Hf1 & ->). cbn [rbind].
    destruct (W 50000%R v b f1 Hf1) as (f2 & b' & Hf2 & ->). cbn [rbind].
    do 4 eexists. split; [reflexivity |]. split; [split; [reflexivity |]; exists f2; split; [exact Hf2 | reflexivity] |].
    split; [destruct P0; reflexivity |]. intros a H. apply (ready_bedload f2) in H. destruct P0; exact H.
  Qed.
  Example C87_bedload : forall k, exists m np' st1 o0 x r np3,
    let h := variable_bedload (A:=XA) (S:=unit) 20000%R 50000%R in
    construct (A:=XA) (exI (A:=XA)) tt 0 = Ok (m, np') /\ write_output (A:=XA) (m_P m) (m_st m) = (st1, o0) /\ (0 <= p_dt (m_P m))%R /\
    custom_updates (A:=XA) (starting h) k (mkCustom (m_P m) (m_P m) (mkWork st1 [] o0) (false, false)) = Ok x /\
    resume (A:=XA) (exI (A:=XA)) (save_the_checkpoint (st x)) false tt 5 = Ok (r, np3) /\
    (exists x', custom_updates (A:=XA) (starting h) 2 x = Ok x').
  Proof.
    intros k. destruct (ex_class (variable_bedload (A:=XA) (S:=unit) 20000%R 50000%R) bed_inv (fun _ => (false, false)) k)
      as (m & np' & st1 & o0 & x & r & np3 & E1 & E2 & E3 & E4 & HP & HI & HR & HF).
    { intros m np' E. split; [apply bed_harmless |]. split; [reflexivity |]. exists (p_f_bedload (m_P m)).
      split; [| destruct (m_P m); reflexivity].
      pose proof (construct_outcome (G:=half_rng) (GN:=count_rng) (exI (A:=RX)) tt 0) as K.
      change RX with XA in *. rewrite E in K. destruct K as (_ & _ & _ & z & _ & _ & _ & _ & HD & _).
      pose proof (de_copied _ _ HD) as HC. decompose [and] HC. replace (p_f_bedload (m_P m)) with (i_f_bedload (exI (A:=XA))) by (symmetry; assumption). cbn. lra. }
    exists m, np', st1, o0, x, r, np3. cbn zeta. split; [exact E1 |]. split; [exact E2 |].
    split; [rewrite (proj1 (exI_steps 0 m np' E1)); lra |]. split; [exact E3 |]. split; [exact E4 |].
    destruct (custom_total _ (bed_inv (m_P m)) 2 (bed_harmless _) half_rng_range half_rng_pos x HI HR HF) as (x' & Ex & _). eauto.
  Qed.

  (** The velocity class that builds the routers again, with a velocity that
      grows from 1 to 2 m/s. *)
  Definition growing (t : R) : R := Rmin 2 (Rmax 1 (t / 15000)).
  Lemma growing_range t : (1 <= growing t <= 2)%R.
  Proof. unfold growing, Rmin, Rmax. repeat destruct (Rle_dec _ _); lra. Qed.
  Definition ex_attributes : inputs R := seti_seed None (resolved (fun x => x) (exI (A:=XA))).
  Record vel_inv (P0 P Q : params R) (y : inputs R) : Prop := {
    vi_routers : Q = P;
    vi_own : forall x, seti_u0 x y = seti_u0 x ex_attributes;
    vi_L0 : p_L0 P = Z.max 1 (Z.min (ZnearestE (i_L0_meters ex_attributes / i_dx ex_attributes)) (p_L P / 4));
    vi_stepmax : p_stepmax P = step_limit ex_attributes P;
    vi_water : p_Np_water P = 4; vi_sed : p_Np_sed P = 4; vi_itermax : p_itermax P = 3; vi_beta : p_beta P = 3%R
  }.
  Lemma ex_conditions (x : R) (P : params R) : (1 <= x <= 2)%R -> p_Np_water P = 4 -> p_Np_sed P = 4 -> p_itermax P = 3 -> p_beta P = 3%R ->
    p_L0 P = Z.max 1 (Z.min (ZnearestE (i_L0_meters ex_attributes / i_dx ex_attributes)) (p_L P / 4)) ->
    p_stepmax P = step_limit ex_attributes P ->
    exists P', create_boundary_conditions (A:=XA) (seti_u0 x ex_attributes) (setp_u0 x P) = Ok P' /\
      p_L P' = p_L P /\ p_W P' = p_W P /\ p_L0 P' = p_L0 P /\ p_stepmax P' = p_stepmax P /\ p_Np_water P' = 4 /\ p_Np_sed P' = 4 /\
      p_itermax P' = 3 /\ p_beta P' = 3%R /\ forall a : state R unit, model_ready P a -> model_ready (init_sediment_routers P') a.
  Proof.
    intros Hx Hw Hs Hi Hb HL HM.
    set (N0 := Z.max 3 (Z.min (ZnearestE (i_N0_meters (seti_u0 x ex_attributes) / i_dx (seti_u0 x ex_attributes))) (p_W (setp_u0 x P) / 4))).
    assert (HN : (3 <= IZR N0)%R) by (apply IZR_le; lia).
    assert (HNN : (9 <= IZR (N0 * N0))%R) by (rewrite mult_IZR; nra).
    assert (HC : (1 <= ZnearestE (1 / 10 * IZR (N0 * N0) * (5 * (50 * 50)) / (5 * (50 * 50))))%Z).
    { eapply rounded_ge; [apply nearest_rounded |]. lra. }
    pose proof (boundary_spec (seti_u0 x ex_attributes) (setp_u0 x P)) as K. cbn zeta in K. fold N0 in K. clearbody N0.
    cbn [i_u0 i_dx i_h0 i_C0_percent i_S0 i_L0_meters i_sed_lag i_alpha i_stepmax seti_u0 ex_attributes seti_seed resolved
      seti_checkpoint_dt seti_active_layer_thickness exI] in K. cbn [fz flit RA fdiv] in K.
    change (p_Np_water (setp_u0 x P)) with (p_Np_water P) in K. change (p_Np_sed (setp_u0 x P)) with (p_Np_sed P) in K.
    change (p_itermax (setp_u0 x P)) with (p_itermax P) in K. rewrite Hw, Hs, Hi in K.
    assert (HQ : (0 < x * 5 * IZR N0 * 50 * (1 / 10 * 1 / 100))%R) by nra.
    destruct (create_boundary_conditions (A:=XA) (seti_u0 x ex_attributes) (setp_u0 x P)) as [P' |].
    2:{ exfalso. destruct K as [_ K]. repeat destruct K as [K | K]; try lra; try nra.
        apply (eq_IZR _ 0) in K. lia. }
    destruct K as (_ & _ & _ & _ & _ & _ & _ & _ & ->). eexists. split; [reflexivity |].
    assert (G1 : (0 <= 981 / 100 * (15 / 100000) * 50 / (x * x) <= 1)%R).
    { assert (1 <= x * x)%R by nra. split; [apply Rmult_le_pos; [lra | left; apply Rinv_0_lt_compat; lra] |].
      apply Rmult_le_reg_r with (x * x)%R; [lra |]. unfold Rdiv. rewrite Rmult_assoc, Rinv_l by lra. lra. }
    assert (G2 : (1 / 10 * IZR (N0 * N0) * (5 * (50 * 50)) / (x * 5 * IZR N0 * 50 * (1 / 10 * 1 / 100)))%R <> 0%R).
    { apply Rgt_not_eq, Rdiv_lt_0_compat; lra. }
    unfold step_limit in HM. cbn in HM. cbn in HL.
    set (g := (981 / 100 * (15 / 100000) * 50 / (x * x))%R) in *.
    split; [reflexivity |]. split; [reflexivity |]. split; [symmetry; exact HL |]. split; [symmetry; exact HM |].
    split; [exact Hw |]. split; [exact Hs |]. split; [exact Hi |]. split; [exact Hb |].
    intros a (R1 & R2 & R3). split; [| split].
    - destruct R1. constructor; cbn; rewrite <- ?HL; auto. unfold step_limit. cbn. rewrite <- HM. assumption.
    - destruct R2. constructor; cbn; rewrite <- ?HL; auto. unfold step_limit. cbn. rewrite <- HM. assumption.
    - destruct R3. constructor; cbn; auto. apply Rgt_not_eq, npow_pos. lra.
  Qed.
  Lemma u0_again (x y : R) (c : inputs R) : seti_u0 x (seti_u0 y c) = seti_u0 x c. Proof. reflexivity. Qed.
  Lemma vel_harmless P0 : harmless (variable_velocity_rebuilt (A:=XA) (S:=unit) growing) (vel_inv P0).
  Proof.
    intros P Q v y [-> Ho HL HM Hw Hs Hi Hb]. unfold variable_velocity_rebuilt, variable_velocity. rewrite Ho. cbn [i_u0 seti_u0].
    destruct (ex_conditions (growing (v_time v)) P (growing_range _) Hw Hs Hi Hb HL HM)
      as (P' & E & L1 & L2 & L3 & L4 & L5 & L6 & L7 & L8 & HR).
    change (i_u0 (seti_u0 (growing (v_time v)) ex_attributes)) with (growing (v_time v)).
    rewrite E. cbn [rbind]. do 4 eexists. split; [reflexivity |]. split; [| split].
    - constructor; [reflexivity | intros z; apply u0_again | | | exact L5 | exact L6 | exact L7 | exact L8].
      + change (p_L0 (init_sediment_routers P')) with (p_L0 P'). change (p_L (init_sediment_routers P')) with (p_L P').
        rewrite L1, L3. exact HL.
      + change (p_stepmax (init_sediment_routers P')) with (p_stepmax P'). rewrite L4, HM. unfold step_limit.
        change (p_L (init_sediment_routers P')) with (p_L P'). change (p_W (init_sediment_routers P')) with (p_W P'). rewrite L1, L2. reflexivity.
    - apply self_routers.
    - exact HR.
  Qed.
  Lemma ex_constructed m np' : construct (A:=XA) (exI (A:=XA)) tt 0 = Ok (m, np') ->
    seti_seed None (m_in m) = ex_attributes /\ vel_inv (m_P m) (m_P m) (m_P m) (seti_seed None (m_in m)).
  Proof.
    intros E. assert (K : m_in m = resolved (fun x => x) (exI (A:=XA))).
    { unfold construct in E. pose proof (process_spec (fun x => x) (exI (A:=XA))) as K.
      destruct (process_input_to_model (A:=XA) (exI (A:=XA))) as [c' |]; [| discriminate]. destruct K as [_ ->]. cbn [rbind] in E.
      unfold determine_random_seed in E. cbn [i_seed resolved seti_checkpoint_dt seti_active_layer_thickness exI] in E.
      apply rbind_Ok in E as (? & _ & E). apply rbind_Ok in E as ([? ?] & _ & E). apply okay_inj in E. apply (f_equal (fun z => m_in (fst z))) in E.
      cbn [fst m_in] in E. symmetry. exact E. }
    split; [rewrite K; reflexivity |]. rewrite K.
    pose proof (construct_outcome (G:=half_rng) (GN:=count_rng) (exI (A:=RX)) tt 0) as H.
    change RX with XA in *. rewrite E in H. destruct H as (_ & _ & _ & z & _ & _ & _ & _ & HD & _).
    pose proof (de_copied _ _ HD) as HC. decompose [and] HC.
    constructor; [reflexivity | intros ?; reflexivity | | | assumption | assumption | assumption | assumption].
    - destruct (de_L0 _ _ HD) as (n & Hn & ->). rewrite (rounded_unique _ _ _ Hn (nearest_rounded _)). reflexivity.
    - exact (de_stepmax _ _ HD).
  Qed.
  Example C87_velocity : forall k, exists m np' st1 o0 x r np3,
    let h := variable_velocity_rebuilt (A:=XA) (S:=unit) growing in
    construct (A:=XA) (exI (A:=XA)) tt 0 = Ok (m, np') /\ write_output (A:=XA) (m_P m) (m_st m) = (st1, o0) /\
    custom_updates (A:=XA) (starting h) k (mkCustom (m_P m) (m_P m) (mkWork st1 [] o0) (seti_seed None (m_in m))) = Ok x /\
    resume (A:=XA) (exI (A:=XA)) (save_the_checkpoint (st x)) false tt 5 = Ok (r, np3) /\
    (exists x', custom_updates (A:=XA) (starting h) 2 x = Ok x').
  Proof.
    intros k. destruct (ex_class (variable_velocity_rebuilt (A:=XA) (S:=unit) growing) vel_inv (fun m => seti_seed None (m_in m)) k)
      as (m & np' & st1 & o0 & x & r & np3 & E1 & E2 & E3 & E4 & HP & HI & HR & HF).
    { intros m np' E. split; [apply vel_harmless | exact (proj2 (ex_constructed m np' E))]. }
    exists m, np', st1, o0, x, r, np3. cbn zeta. split; [exact E1 |]. split; [exact E2 |]. split; [exact E3 |]. split; [exact E4 |].
    destruct (custom_total _ (vel_inv (m_P m)) 2 (vel_harmless _) half_rng_range half_rng_pos x HI HR HF) as (x' & Ex & _). eauto.
  Qed.

  (** ** What does not hold *)
  (** The recipe of the documentation for a changing velocity computes the
      constants again but does not build the routers again: with 2 m/s from the
      first update on, the model has the constants of 2 m/s and half the step,
      sediment is routed with those of 1 m/s. *)
  Theorem C87_documented_velocity_refuted : exists m np',
    construct (A:=XA) (exI (A:=XA)) tt 0 = Ok (m, np') /\
    exists x, starting (variable_velocity (A:=XA) (S:=unit) (fun _ => 2%R)) (Before Solve)
        (mkCustom (m_P m) (m_P m) (mkWork (m_st m) [] []) (seti_seed None (m_in m))) = Ok x /\
      (p_u0 (u_P x) = 2 /\ p_u_max (u_P x) = 4 /\ p_dt (u_P x) = 7500)%R /\
      (let Q := constants_of (Start RouteSand) x in p_u0 Q = 1 /\ p_u_max Q = 2 /\ p_dt Q = 15000)%R /\
      ~ routers_match x.
  Proof.
    destruct (runnable_ready (exI (A:=RX)) tt 0 exI_runnable) as (m & np' & E & Hr). change RX with XA in *.
    exists m, np'. split; [exact E |]. destruct (ex_constructed m np' E) as [HA [_ Ho HL HM Hw Hs Hi Hb]].
    destruct (ex_conditions 2 (m_P m) ltac:(lra) Hw Hs Hi Hb HL HM) as (P' & EP & _).
    pose proof (construct_outcome (G:=half_rng) (GN:=count_rng) (exI (A:=RX)) tt 0) as H.
    change RX with XA in *. rewrite E in H. destruct H as (_ & _ & _ & z & _ & _ & _ & _ & HD & _).
    destruct (exI_steps 0 m np' E) as (Hdt & _).
    assert (Q : (p_u0 P' = 2 /\ p_u_max P' = 4 /\ p_dt P' = 7500)%R).
    { pose proof (boundary_spec (seti_u0 2%R ex_attributes) (setp_u0 2%R (m_P m))) as K. cbn zeta in K.
      assert (HW : p_W (m_P m) = 14).
      { pose proof (de_cols _ _ HD) as [D2 _]. apply (rounded_unique (700 / 50)%R); [exact D2 |].
        split; [| intros _; reflexivity]. replace (IZR 14 - 700 / 50)%R with 0%R by lra. rewrite Rabs_R0. lra. }
      assert (HN : ZnearestE (i_N0_meters (seti_u0 2%R ex_attributes) / i_dx (seti_u0 2%R ex_attributes)) = 4).
      { apply (rounded_unique (200 / 50)%R); [apply nearest_rounded |]. split; [| intros _; reflexivity].
        replace (IZR 4 - 200 / 50)%R with 0%R by lra. rewrite Rabs_R0. lra. }
      change (p_W (setp_u0 2%R (m_P m))) with (p_W (m_P m)) in K. rewrite HW, HN, EP in K.
      destruct K as (_ & _ & _ & _ & _ & _ & _ & _ & K). rewrite K. split; [reflexivity |]. split; cbn; lra. }
    assert (Q1 : (p_u0 (m_P m) = 1)%R).
    { pose proof (de_copied _ _ HD) as HC. decompose [and] HC. assumption. }
    assert (Q2 : (p_u_max (m_P m) = 2)%R) by (rewrite (de_u_max _ _ HD); cbn; lra).
    eexists. split.
    { rewrite starting_at. cbn [u_P u_R u_w k_st u_own]. unfold variable_velocity. rewrite HA.
      change (i_u0 (seti_u0 2%R ex_attributes)) with 2%R. rewrite EP. cbn [rbind]. reflexivity. }
    split; [exact Q |]. split; [exact (conj Q1 (conj Q2 Hdt)) |].
    unfold routers_match. cbn [u_P u_R]. intros K. apply (f_equal p_dt) in K. change (p_dt (m_P m) = p_dt P') in K.
    rewrite Hdt in K. destruct Q as (_ & _ & Q). lra.
  Qed.
  Print Assumptions C87_documented_velocity_refuted.

  (** A class that counts its updates in an attribute of its own and uses the
      count goes another way after a resume, since the count is not saved. *)
  Definition counting : start_hook R unit R :=
    fun '(P, Q, v, y) => let P' := setp_SLR (y / 1000)%R P in Ok (P', P', v, (y + 1)%R).
  Definition counting_inv (P0 P Q : params R) (y : R) : Prop := exists s, P = setp_SLR s P0.
  Lemma counting_harmless P0 : harmless counting (counting_inv P0).
  Proof.
    intros P Q v y (s & ->). do 4 eexists. split; [reflexivity |]. split; [| split].
    - exists (y / 1000)%R. destruct P0; reflexivity.
    - apply self_routers.
    - intros a. apply ready_SLR.
  Qed.
  Lemma counting_sea x x' : custom_updates (A:=XA) (starting counting) 1 x = Ok x' ->
    s_H_SL (st x') = (s_H_SL (st x) + u_own x / 1000 * p_dt (u_P x))%R /\ u_own x' = (u_own x + 1)%R.
  Proof.
    intros E. cbn [custom_updates] in E. apply rbind_Ok in E as (z & E & Ez). injection Ez as <-.
    pose proof (start_update_library (A:=XA) (starting counting) (starting_only counting) x) as K. rewrite starting_at in K.
    cbn [rbind counting] in K.
    match type of K with (?H -> _) => assert (HM : H) by (intros y Ey; injection Ey as <-; apply self_routers) end.
    specialize (K HM). cbn [u_P u_R u_w k_st u_own k_out] in K.
    match type of K with match ?t with _ => _ end => destruct t as [[a o] |] eqn:Ea end.
    2:{ rewrite E in K. discriminate. }
    destruct K as (ps & K). rewrite E in K. apply okay_inj in K. subst z. cbn [u_w k_st u_own].
    apply update_frame in Ea as (_ & _ & _ & _ & _ & Hs & _). rewrite Hs. split; reflexivity.
  Qed.
  Theorem C87_own_counter_refuted : exists m np' st1 o0 x r np3 x1 x2,
    construct (A:=XA) (exI (A:=XA)) tt 0 = Ok (m, np') /\ write_output (A:=XA) (m_P m) (m_st m) = (st1, o0) /\ keeps_routers counting /\
    custom_updates (A:=XA) (starting counting) 1 (mkCustom (m_P m) (m_P m) (mkWork st1 [] o0) 0%R) = Ok x /\
    resume (A:=XA) (exI (A:=XA)) (save_the_checkpoint (st x)) false tt 5 = Ok (r, np3) /\
    custom_updates (A:=XA) (starting counting) 1 x = Ok x1 /\
    custom_updates (A:=XA) (starting counting) 1 (mkCustom (m_P r) (m_P r) (mkWork (m_st r) [] []) 0%R) = Ok x2 /\
    s_H_SL (st x1) <> s_H_SL (st x2).
  Proof.
    destruct (ex_class counting counting_inv (fun _ => 0%R) 1) as (m & np' & st1 & o0 & x & r & np3 & E1 & E2 & E3 & E4 & HP & HI & HR & HF).
    { intros m np' E. split; [apply counting_harmless |]. exists (p_SLR (m_P m)). destruct (m_P m); reflexivity. }
    destruct (custom_total counting (counting_inv (m_P m)) 1 (counting_harmless _) half_rng_range half_rng_pos x HI HR HF) as (x1 & Ex1 & _).
    assert (H2 : exists x2, custom_updates (A:=XA) (starting counting) 1 (mkCustom (m_P r) (m_P r) (mkWork (m_st r) [] []) 0%R) = Ok x2 /\
      s_H_SL (m_st r) = s_H_SL (st x)).
    { unfold resume in E4. apply rbind_Ok in E4 as ([m2 np4] & C2 & E4). apply rbind_Ok in E4 as (st' & L & E4).
      apply okay_inj in E4. apply (f_equal fst) in E4. cbn [fst] in E4. subst r. cbn [m_P m_st] in *.
      destruct (load_holds _ _ _ _ L) as (_ & Hc & Hwd & _).
      destruct (runnable_ready (exI (A:=RX)) tt 5 exI_runnable) as (m3 & np5 & C3 & HW & HS & HV). change RX with XA in *.
      rewrite C2 in C3. apply okay_inj in C3. apply (f_equal fst) in C3. cbn [fst] in C3. subst m3.
      assert (HM : model_ready (m_P m2) st').
      { split; [destruct HW; constructor; rewrite ?Hc, ?Hwd; auto |]. split; [apply (sed_ready_frame (m_P m2) (m_st m2)); auto | exact HV]. }
      assert (HF2 : finite_since st' /\ s_H_SL st' = s_H_SL (st x)).
      { unfold load_checkpoint in L. destruct HF as [t Ft]. cbn [c_save_time_since_data save_the_checkpoint] in L. rewrite Ft in L.
        apply okay_inj in L. subst st'. split; [eexists; reflexivity | reflexivity]. }
      destruct (custom_total counting (counting_inv (m_P m2)) 1 (counting_harmless _) half_rng_range half_rng_pos
        (mkCustom (m_P m2) (m_P m2) (mkWork st' [] []) 0%R)) as (x2 & Ex2 & _);
        [exists (p_SLR (m_P m2)); destruct (m_P m2); reflexivity | exact HM | exact (proj1 HF2) |].
      exists x2. split; [exact Ex2 | exact (proj2 HF2)]. }
    destruct H2 as (x2 & Ex2 & HS2).
    exists m, np', st1, o0, x, r, np3, x1, x2. split; [exact E1 |]. split; [exact E2 |].
    split; [intros P Q v y P' Q' v' y' E _; cbn in E; apply okay_inj in E; pose proof (f_equal (fun z => fst (fst (fst z))) E) as K1;
      pose proof (f_equal (fun z => snd (fst (fst z))) E) as K2; cbn in K1, K2; rewrite <- K1, <- K2; split; [apply self_routers | reflexivity] |].
    split; [exact E3 |]. split; [exact E4 |]. split; [exact Ex1 |]. split; [exact Ex2 |].
    destruct (counting_sea _ _ E3) as [_ Ho]. destruct (counting_sea _ _ Ex1) as [S1 _]. destruct (counting_sea _ _ Ex2) as [S2 _].
    cbn [u_own u_P u_w k_st] in *. rewrite S1, S2, HS2, Ho. destruct HI as (s & HU). rewrite HU.
    change (p_dt (setp_SLR s (m_P m))) with (p_dt (m_P m)). rewrite HP, (proj1 (exI_steps 0 m np' E1)). lra.
  Qed.
  Print Assumptions C87_own_counter_refuted.

  (** A hook after finalize_timestep that changes the bed leaves the model with
      a depth that is not that of bed and stage. *)
  Theorem C87_late_bed_refuted : exists x',
    custom_update (A:=XA) (at_end (fun x => mkCustom (u_P x) (u_R x)
        (mkWork (set_eta (fun i j => s_eta (st x) i j + 1)%R (st x)) (k_ps (u_w x)) (k_out (u_w x))) (u_own x)))
      (mkCustom (exP (A:=XA)) (exP (A:=XA)) (mkWork (exst (A:=XA) tt) [] []) tt) = Ok x' /\
    ~ exists s0, settled (fun x => x) s0 (u_P x') (st x').
  Proof.
    match goal with |- exists x', custom_update (at_end ?f) ?x = Ok x' /\ _ => set (raise := f); set (x0 := x) end.
    assert (O : only_at_start (at_end (fun x : custom R unit unit => x))).
    { intros e x _. unfold at_end. destruct (event_eq_dec _ _); reflexivity. }
    pose proof (start_update_library (A:=XA) (at_end (fun x : custom R unit unit => x)) O x0) as K.
    assert (EH : at_end (fun x : custom R unit unit => x) (Before Solve) x0 = Ok x0).
    { unfold at_end. destruct (event_eq_dec _ _); reflexivity. }
    rewrite EH in K. cbn [rbind] in K.
    match type of K with (?H -> _) => assert (HM : H) by (intros y Ey; injection Ey as <-; apply self_routers) end.
    specialize (K HM). change (u_P x0) with (exP (A:=XA)) in K. change (k_st (u_w x0)) with (exst (A:=XA) tt) in K.
    destruct (update_total (exP (A:=XA)) (exst (A:=XA) tt) ex_model_ready half_rng_range half_rng_pos) as (a & o & Ea & _).
    rewrite Ea in K. destruct K as (ps & K).
    destruct (late_total (A:=XA) raise (fun x => x) x0 _ K) as (y & x2 & T1 & T2 & E).
    apply end_fields in T1 as (A1 & A2 & _ & A4), T2 as (B1 & B2 & _ & B4).
    exists x2. split; [exact E |]. intros (s0 & [_ _ HI _]).
    assert (L : forall e, In e late_hooks -> leaves levels (at_end (fun x : custom R unit unit => x)) e).
    { intros e _ b b' H. unfold at_end in H. destruct (event_eq_dec _ _); injection H as <-; reflexivity. }
    destruct (update_settled (fun x => x) (at_end (fun x : custom R unit unit => x)) x0 _ L K) as (s1 & [_ _ HJ _]).
    cbn [u_P u_w k_st] in A1, A2, A4, HJ. unfold raise in B1, B2, B4. cbn [u_P u_w k_st] in B1, B2, B4.
    change (u_P x0) with (exP (A:=XA)) in A4, HJ.
    assert (C : inlet_cell (exP (A:=XA)) 0 2) by (split; [reflexivity | left; reflexivity]).
    destruct (HJ _ _ C) as [_ J]. rewrite B4, <- A4 in HI. destruct (HI _ _ C) as [_ I].
    rewrite B1, B2 in I. cbn [s_eta s_stage set_eta] in I. rewrite A1, A2 in J. lra.
  Qed.
  Print Assumptions C87_late_bed_refuted.
End Example.

Example C87_names : check_deprecated_hooks ["hook_solve_water_and_sediment_timestep"]%string = Ok tt /\
  check_deprecated_hooks ["hook_init"; "hook_sed_route"]%string = Err AttributeError.
Proof. split; reflexivity. Qed.
