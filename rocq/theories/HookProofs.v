(** Proofs about the order of methods and hooks. *)
From Coq Require Import ZArith List Bool Lia.
From Verif Require Import Base Params State Shared Water Sed Iter Hooks HookSpec.
Import ListNotations.
Local Open Scope Z_scope.

(** ** The calls of an update as a list *)
Definition water_pass (it : Z) : list event :=
  [Before InitWaterIteration; Start InitWaterIteration; Before RunWaterIteration; Start RunWaterIteration;
   Before ComputeFreeSurface; Start ComputeFreeSurface;
   Before (FinalizeWaterIteration it); Start (FinalizeWaterIteration it)].
Fixpoint water_events (n : nat) (it : Z) : list event :=
  match n with O => [] | S n' => water_pass it ++ water_events n' (it + 1) end.
Definition out_events : list event :=
  [Before OutputData; Start OutputData; Before OutputCheckpoint; Start OutputCheckpoint].
Definition sed_events : list event :=
  [Before InitSedimentIteration; Start InitSedimentIteration; Before RouteSand; Start RouteSand;
   Before TopoDiffusion; Start TopoDiffusion; Before RouteMud; Start RouteMud].
Definition update_events (itermax : Z) : list event :=
  [Before Solve; Start Solve; Before RouteWater; Start RouteWater] ++
  water_events (Z.to_nat itermax) 0 ++
  [After RouteWater; Before RouteSediment; Start RouteSediment] ++ sed_events ++
  [After RouteSediment; Before ApplySubsidence; Start ApplySubsidence;
   Before FinalizeTimestep; Start FinalizeTimestep; Before ComputeSandFrac; Start ComputeSandFrac;
   Do RaiseSeaLevel; After FinalizeTimestep; Do AdvanceClock] ++ out_events.
Definition init_events (resume defer missing : bool) : list event :=
  [Before ImportFiles; Start ImportFiles; Do InitOutputInfrastructure; Do InitLogger;
   Before ProcessInput; Start ProcessInput; Do DetermineRandomSeed;
   Before CreateOtherVariables; Start CreateOtherVariables;
   Before CreateDomain; Start CreateDomain; After CreateDomain; Do InitSedimentRouters; Do InitSubsidence] ++
  (if resume then [Before LoadCheckpoint; Start LoadCheckpoint] ++
                  (if missing then [Before InitOutputFile; Start InitOutputFile] else [])
   else if defer then [] else [Before InitOutputFile; Start InitOutputFile] ++ out_events).

Section Run.
  Context {X : Type} (call : event -> X -> result X).

  Lemma run_app : forall l1 l2 x, run_events call (l1 ++ l2) x = rbind (run_events call l1 x) (run_events call l2).
  Proof.
    induction l1 as [|e l1 IH]; cbn; intros l2 x; [reflexivity|].
    destruct (call e x); cbn; [apply IH|reflexivity].
  Qed.

  (** f performs the calls of l *)
  Definition performs (f : X -> result X) (l : list event) : Prop := forall x, f x = run_events call l x.
  Lemma performs_call : forall e, performs (call e) [e].
  Proof. intros e x. cbn. destruct (call e x); reflexivity. Qed.
  Lemma performs_then : forall f g l m, performs f l -> performs g m -> performs (andthen f g) (l ++ m).
  Proof.
    intros f g l m Hf Hg x. unfold andthen. rewrite run_app, Hf.
    destruct (run_events call l x); cbn; [apply Hg|reflexivity].
  Qed.
  Lemma performs_cons : forall e g m, performs g m -> performs (andthen (call e) g) (e :: m).
  Proof. intros e g m H. apply (performs_then (call e) g [e] m); [apply performs_call|exact H]. Qed.
  Lemma performs_nothing : performs nothing [].
  Proof. intros x. reflexivity. Qed.

  Lemma water_performs : forall n it, performs (water_calls call n it) (water_events n it).
  Proof.
    induction n as [|n IH]; intros it; cbn [water_calls water_events]; [apply performs_nothing|].
    unfold water_pass. cbn [app]. repeat apply performs_cons. apply IH.
  Qed.
  Lemma out_performs : performs (output_calls call) out_events.
  Proof. unfold output_calls, out_events. repeat apply performs_cons. apply performs_call. Qed.
  Lemma sed_performs : performs (route_sediment_calls call) (Start RouteSediment :: sed_events).
  Proof. unfold route_sediment_calls, sed_events. repeat apply performs_cons. apply performs_call. Qed.

  Lemma update_performs : forall itermax, performs (update_calls call false itermax) (update_events itermax).
  Proof.
    intros itermax. unfold update_calls, solve_calls, route_water_calls, update_events.
    cbv iota beta. cbn [app]. intros x.
    assert (E : performs
      (andthen (call (Before Solve))
       (andthen (andthen (call (Start Solve))
         (andthen (call (Before RouteWater))
          (andthen (andthen (call (Start RouteWater)) (water_calls call (Z.to_nat itermax) 0))
           (andthen (call (After RouteWater))
            (andthen (call (Before RouteSediment))
             (andthen (route_sediment_calls call) (call (After RouteSediment)))))))
        ) (andthen (call (Before ApplySubsidence)) (andthen (call (Start ApplySubsidence))
          (andthen (call (Before FinalizeTimestep)) (andthen (finalize_timestep_calls call)
           (andthen (call (After FinalizeTimestep)) (andthen (call (Do AdvanceClock)) (output_calls call))))))))
      )
      ([Before Solve] ++ ([Start Solve] ++ [Before RouteWater] ++
        ([Start RouteWater] ++ water_events (Z.to_nat itermax) 0) ++ [After RouteWater] ++ [Before RouteSediment] ++
        (Start RouteSediment :: sed_events) ++ [After RouteSediment]) ++
       [Before ApplySubsidence] ++ [Start ApplySubsidence] ++ [Before FinalizeTimestep] ++
       [Start FinalizeTimestep; Before ComputeSandFrac; Start ComputeSandFrac; Do RaiseSeaLevel] ++
       [After FinalizeTimestep] ++ [Do AdvanceClock] ++ out_events)).
    { repeat (apply performs_then); try apply performs_call; try apply water_performs; try apply sed_performs;
        try apply out_performs.
      unfold finalize_timestep_calls. repeat apply performs_cons. apply performs_call. }
    rewrite E. f_equal. rewrite <- !app_assoc. reflexivity.
  Qed.

  Lemma updates_perform : forall n itermax,
    performs (updates_calls call n itermax) (concat (repeat (update_events itermax) n)).
  Proof.
    induction n as [|n IH]; intros itermax; cbn [updates_calls repeat concat]; [apply performs_nothing|].
    apply performs_then; [apply update_performs|apply IH].
  Qed.

  Lemma init_performs : forall resume defer missing,
    performs (init_calls call false resume defer missing) (init_events resume defer missing).
  Proof.
    intros resume defer missing x. unfold init_calls. cbv iota.
    match goal with |- ?f x = _ => assert (E : performs f (init_events resume defer missing)); [|apply E] end.
    unfold init_events. cbn [app]. repeat apply performs_cons.
    destruct resume.
    - unfold load_checkpoint_calls. cbn [app]. apply performs_cons. apply performs_cons.
      destruct missing; [apply performs_cons; apply performs_call|apply performs_nothing].
    - destruct defer; [apply performs_nothing|]. cbn [app]. repeat apply performs_cons.
      apply performs_call.
  Qed.
End Run.

(** ** Adjacency *)
Inductive paired : list event -> Prop :=
| paired_nil : paired []
| paired_after m l : paired l -> paired (After m :: l)
| paired_do s l : paired l -> paired (Do s :: l)
| paired_pair m l : paired l -> paired (Before m :: Start m :: l).

Lemma paired_app : forall l1 l2, paired l1 -> paired l2 -> paired (l1 ++ l2).
Proof. intros l1 l2 H1 H2. induction H1; cbn; try constructor; auto. Qed.

Lemma paired_adjacent : forall l, paired l -> hooks_adjacent l.
Proof.
  intros l H. induction H as [|m l H [IH1 IH2]|s l H [IH1 IH2]|m l H [IH1 IH2]].
  - split; intros l1 m l2 E; destruct l1; discriminate.
  - split; intros l1 m' l2 E; destruct l1 as [|e l1]; try discriminate; injection E as <- E.
    + destruct (IH1 l1 m' l2 E) as [l0 ->]. exists (After m :: l0). reflexivity.
    + exact (IH2 l1 m' l2 E).
  - split; intros l1 m' l2 E; destruct l1 as [|e l1]; try discriminate; injection E as <- E.
    + destruct (IH1 l1 m' l2 E) as [l0 ->]. exists (Do s :: l0). reflexivity.
    + exact (IH2 l1 m' l2 E).
  - split; intros l1 m' l2 E.
    + destruct l1 as [|e l1]; [discriminate|]. injection E as <- E.
      destruct l1 as [|e l1]; injection E as E1 E.
      * subst. exists []. reflexivity.
      * subst e. destruct (IH1 l1 m' l2 E) as [l0 ->]. exists (Before m :: Start m :: l0). reflexivity.
    + destruct l1 as [|e l1]; injection E as E1 E; [subst; eexists; reflexivity|].
      destruct l1 as [|e2 l1]; [discriminate|]. injection E as E2 E. exact (IH2 l1 m' l2 E).
Qed.

Lemma water_paired : forall n it, paired (water_events n it).
Proof. induction n; intros it; cbn [water_events]; [constructor|]. apply paired_app; [repeat constructor|apply IHn]. Qed.

Lemma update_paired : forall itermax, paired (update_events itermax).
Proof.
  intros itermax. unfold update_events. apply paired_app; [repeat constructor|].
  apply paired_app; [apply water_paired|]. repeat constructor.
Qed.
Lemma init_paired : forall resume defer missing, paired (init_events resume defer missing).
Proof. intros [] [] []; repeat constructor. Qed.
Lemma concat_paired : forall n l, paired l -> paired (concat (repeat l n)).
Proof. induction n; intros l H; cbn; [constructor|]. apply paired_app; auto. Qed.

(** ** Order *)
Lemma water_methods : forall n k, methods (water_events n (Z.of_nat k)) =
  flat_map (fun it => [Start InitWaterIteration; Start RunWaterIteration; Start ComputeFreeSurface;
                       Start (FinalizeWaterIteration it)]) (map Z.of_nat (seq k n)).
Proof.
  induction n as [|n IH]; intros k; [reflexivity|].
  cbn [water_events seq map flat_map]. unfold methods in *. rewrite filter_app.
  replace (Z.of_nat k + 1) with (Z.of_nat (S k)) by lia. rewrite IH. reflexivity.
Qed.

Lemma update_methods : forall itermax, methods (update_events itermax) = update_order itermax.
Proof.
  intros itermax. unfold update_events, update_order, methods, iteration_numbers. rewrite !filter_app.
  change 0 with (Z.of_nat 0) at 1. fold (methods (water_events (Z.to_nat itermax) (Z.of_nat 0))).
  rewrite water_methods. reflexivity.
Qed.

Lemma water_inside : forall n it, Forall in_water (water_events n it).
Proof. induction n; intros it; cbn; repeat constructor; apply IHn. Qed.

Lemma update_after : forall itermax,
  directly_after in_water (Start RouteWater) (After RouteWater) (update_events itermax) /\
  directly_after in_sediment (Start RouteSediment) (After RouteSediment) (update_events itermax) /\
  directly_after in_finalize (Start FinalizeTimestep) (After FinalizeTimestep) (update_events itermax).
Proof.
  intros itermax. unfold directly_after, update_events. split; [|split].
  - exists [Before Solve; Start Solve; Before RouteWater], (water_events (Z.to_nat itermax) 0). eexists.
    split; [reflexivity|apply water_inside].
  - exists ([Before Solve; Start Solve; Before RouteWater; Start RouteWater] ++
            water_events (Z.to_nat itermax) 0 ++ [After RouteWater; Before RouteSediment]), sed_events.
    eexists. split; [rewrite <- !app_assoc; reflexivity|repeat constructor].
  - exists ([Before Solve; Start Solve; Before RouteWater; Start RouteWater] ++
            water_events (Z.to_nat itermax) 0 ++ [After RouteWater; Before RouteSediment; Start RouteSediment] ++
            sed_events ++ [After RouteSediment; Before ApplySubsidence; Start ApplySubsidence; Before FinalizeTimestep]),
      [Before ComputeSandFrac; Start ComputeSandFrac; Do RaiseSeaLevel].
    eexists. split; [rewrite <- !app_assoc; reflexivity|repeat constructor].
Qed.

(** ** Counts *)
Lemma count_app : forall l1 l2 e, count_occ event_eq_dec (l1 ++ l2) e =
  (count_occ event_eq_dec l1 e + count_occ event_eq_dec l2 e)%nat.
Proof. intros. apply count_occ_app. Qed.

Local Ltac cnt := cbn [count_occ]; repeat
  match goal with
  | |- context [event_eq_dec ?a ?b] =>
      let Q := fresh "Q" in destruct (event_eq_dec a b) as [Q|Q]; [try discriminate Q|try congruence]
  end.

Lemma water_count : forall n it e,
  count_occ event_eq_dec (water_events n it) e =
  match e with
  | Before m | Start m =>
      match m with
      | InitWaterIteration | RunWaterIteration | ComputeFreeSurface => n
      | FinalizeWaterIteration k => if (it <=? k) && (k <? it + Z.of_nat n) then 1%nat else 0%nat
      | _ => 0%nat
      end
  | _ => 0%nat
  end.
Proof.
  induction n as [|n IH]; intros it e.
  - cbn. destruct e as [m|m|m|s]; auto; destruct m; auto;
      destruct (Z.leb_spec it iteration), (Z.ltb_spec iteration (it + 0)); cbn; auto; lia.
  - cbn [water_events]. rewrite count_app, IH. unfold water_pass.
    destruct e as [m|m|m|s]; [| |cnt; reflexivity|cnt; reflexivity];
    destruct m; try (cnt; reflexivity).
    + cnt.
      * assert (it = iteration) as <- by congruence. rewrite Z.leb_refl.
        destruct (Z.leb_spec (it + 1) it), (Z.ltb_spec it (it + Z.of_nat (S n))); cbn; lia.
      * assert (it <> iteration) by congruence.
        destruct (Z.leb_spec (it + 1) iteration), (Z.leb_spec it iteration),
          (Z.ltb_spec iteration (it + 1 + Z.of_nat n)), (Z.ltb_spec iteration (it + Z.of_nat (S n))); cbn; lia.
    + cnt.
      * assert (it = iteration) as <- by congruence. rewrite Z.leb_refl.
        destruct (Z.leb_spec (it + 1) it), (Z.ltb_spec it (it + Z.of_nat (S n))); cbn; lia.
      * assert (it <> iteration) by congruence.
        destruct (Z.leb_spec (it + 1) iteration), (Z.leb_spec it iteration),
          (Z.ltb_spec iteration (it + 1 + Z.of_nat n)), (Z.ltb_spec iteration (it + Z.of_nat (S n))); cbn; lia.
Qed.

Lemma update_count : forall itermax e, 0 <= itermax ->
  (exists m, e = Before m \/ e = After m) ->
  count_occ event_eq_dec (update_events itermax) e = times itermax e.
Proof.
  intros itermax e H [m [->| ->]]; unfold update_events; rewrite !count_app, water_count.
  - destruct m; cbn; rewrite ?Nat.add_0_r; try reflexivity.
    rewrite Z2Nat.id by exact H. destruct (_ && _); reflexivity.
  - destruct m; reflexivity.
Qed.

(** ** Hooks that only observe *)
Section Observe.
  Context {F : Type} {A : Arith F} {S : Type} {G : Rng F S} (P : params F) {Y : Type}.
  Context (obs : event -> work (F:=F) (S:=S) -> Y -> Y).
  Definition watching (e : event) (x : work * Y) : result (work * Y) := Ok (fst x, obs e (fst x) (snd x)).
  Notation call := (hooked_call P watching).

  Definition sim (f : work * Y -> result (work * Y)) (h : state F S -> result (state F S * list (output F S))) : Prop :=
    forall st ps out y,
      match h st with
      | Ok (st', o) => exists ps' y', f (mkWork st ps out, y) = Ok (mkWork st' ps' (out ++ o), y')
      | Err e => f (mkWork st ps out, y) = Err e
      end.
  Definition hseq (h1 h2 : state F S -> result (state F S * list (output F S))) st :=
    do (st1, o1) <- h1 st; do (st2, o2) <- h2 st1; Ok (st2, o1 ++ o2).
  Definition plain (h : state F S -> result (state F S)) st : result (state F S * list (output F S)) :=
    do st <- h st; Ok (st, []).

  Lemma sim_then : forall f1 f2 h1 h2, sim f1 h1 -> sim f2 h2 -> sim (andthen f1 f2) (hseq h1 h2).
  Proof.
    intros f1 f2 h1 h2 H1 H2 st ps out y. unfold hseq, andthen. specialize (H1 st ps out y).
    destruct (h1 st) as [[st1 o1]|e]; cbn [rbind].
    - destruct H1 as (ps1 & y1 & ->). cbn [rbind]. specialize (H2 st1 ps1 (out ++ o1) y1).
      destruct (h2 st1) as [[st2 o2]|e]; cbn [rbind].
      + destruct H2 as (ps2 & y2 & ->). exists ps2, y2. rewrite app_assoc. reflexivity.
      + exact H2.
    - rewrite H1. reflexivity.
  Qed.
  Lemma sim_hook : forall e f h, (exists m, e = Before m \/ e = After m) -> sim f h -> sim (andthen (call e) f) h.
  Proof.
    intros e f h [m [->| ->]] H st ps out y; unfold andthen; cbn; apply H.
  Qed.
  Lemma sim_st : forall e (h : state F S -> result (state F S)),
    (forall x, hooked_call P watching e x = rbind (with_st h (fst x)) (fun w => Ok (w, snd x))) -> sim (call e) (plain h).
  Proof.
    intros e h E st ps out y. rewrite E. unfold plain, with_st. cbn.
    destruct (h st); cbn; [|reflexivity]. exists ps, y. rewrite app_nil_r. reflexivity.
  Qed.
  Lemma sim_ext : forall f h h', (forall st, h st = h' st) -> sim f h -> sim f h'.
  Proof. intros f h h' E H st ps out y. rewrite <- E. apply H. Qed.
  Lemma sim_ext_f : forall f f' h, (forall x, f x = f' x) -> sim f h -> sim f' h.
  Proof. intros f f' h E H st ps out y. specialize (H st ps out y). rewrite E in H. exact H. Qed.

  Lemma hseq_plain : forall h1 h2 st, hseq (plain h1) (plain h2) st = plain (fun st => do st <- h1 st; h2 st) st.
  Proof.
    intros. unfold hseq, plain. destruct (h1 st); cbn; [|reflexivity]. destruct (h2 a); reflexivity.
  Qed.

  Lemma andthen_assoc : forall {Z} (f g h : Z -> result Z) x,
    andthen (andthen f g) h x = andthen f (andthen g h) x.
  Proof. intros. unfold andthen. destruct (f x); reflexivity. Qed.

  Lemma sim_pass : forall it f h, sim f h ->
    sim (fun x => rbind (run_events call (water_pass it) x) f) (hseq (plain (water_iteration P it)) h).
  Proof.
    intros it f h H st ps out y. unfold hseq, plain, water_iteration, water_pass.
    cbn [run_events hooked_call watching method_effect fst snd rbind k_st].
    destruct (run_water_iteration P st) as [[[[ps1 q] width] s]|e]; cbn [rbind]; [|reflexivity].
    destruct q as [[qxn qyn] qwn]. cbn [rbind fst snd]. unfold with_st. cbn [k_st k_ps k_out].
    destruct (compute_free_surface P ps1 _) as [st1|e]; cbn [rbind fst snd]; [|reflexivity].
    unfold with_st. cbn [rbind fst snd k_st k_ps k_out].
    match goal with |- context [f (mkWork ?a ?b ?c, ?d)] => specialize (H a b c d) end.
    destruct (h _) as [[st2 o2]|e]; cbn [rbind]; exact H.
  Qed.

  Lemma sim_water : forall n it f h, sim f h ->
    sim (fun x => rbind (run_events call (water_events n it) x) f) (hseq (plain (water_iterations P n it)) h).
  Proof.
    induction n as [|n IH]; intros it f h H; cbn [water_events water_iterations].
    - apply (sim_ext _ h); [|intros st ps out y; apply H].
      intros st. unfold hseq, plain. cbn. destruct (h st) as [[? ?]|]; reflexivity.
    - apply (sim_ext_f (fun x => rbind (run_events call (water_pass it) x)
               (fun x => rbind (run_events call (water_events n (it + 1)) x) f))).
      { intros x. rewrite run_app. destruct (run_events call (water_pass it) x); reflexivity. }
      eapply sim_ext; [|apply sim_pass; apply IH; exact H].
      intros st. unfold hseq, plain. destruct (water_iteration P it st) as [st1|]; cbn; [|reflexivity].
      destruct (water_iterations P n (it + 1) st1) as [st2|]; cbn; [|reflexivity].
      destruct (h st2) as [[? ?]|]; reflexivity.
  Qed.

  Definition sem (f : state F S -> state F S) : state F S -> result (state F S * list (output F S)) :=
    plain (fun st => Ok (f st)).

  (** A list of calls simulates h. *)
  Definition does (l : list event) h : Prop := sim (run_events call l) h.
  Lemma does_nil : does [] (plain (fun st => Ok st)).
  Proof. intros st ps out y. cbn. exists ps, y. rewrite app_nil_r. reflexivity. Qed.
  Lemma does_hook : forall e l h, (exists m, e = Before m \/ e = After m) -> does l h -> does (e :: l) h.
  Proof. intros e l h [m [->| ->]] H st ps out y; cbn; apply H. Qed.
  Lemma does_cons : forall e l h1 h2, sim (call e) h1 -> does l h2 -> does (e :: l) (hseq h1 h2).
  Proof.
    intros e l h1 h2 H1 H2. apply (sim_ext_f (andthen (call e) (run_events call l))); [|apply sim_then; auto].
    intros x. unfold andthen. cbn. destruct (hooked_call P watching e x); reflexivity.
  Qed.

  Lemma sim_out1 : sim (call (Start OutputData)) (fun st => Ok (output_data P st)).
  Proof.
    intros st ps out y. cbn. destruct (output_data P st) as [st' o]. cbn. eexists; eexists; reflexivity.
  Qed.
  Lemma sim_out2 : sim (call (Start OutputCheckpoint)) (fun st => Ok (output_checkpoint P st)).
  Proof.
    intros st ps out y. cbn. destruct (output_checkpoint P st) as [st' o]. cbn. eexists; eexists; reflexivity.
  Qed.
  Lemma sim_skip : forall m, (forall x, hooked_call P watching (Start m) x = Ok x) -> sim (call (Start m)) (plain (fun st => Ok st)).
  Proof.
    intros m E st ps out y. rewrite E. cbn. exists ps, y. rewrite app_nil_r. reflexivity.
  Qed.

  Lemma update_sim : sim (run_events call (update_events (p_itermax P))) (update P).
  Proof.
    assert (HB : forall m, exists m', Before m = Before m' \/ Before m = After m') by (intros m; exists m; auto).
    assert (HA : forall m, exists m', After m = Before m' \/ After m = After m') by (intros m; exists m; auto).
    assert (O : does out_events (fun st => Ok (write_output P st))).
    { unfold out_events. apply does_hook; [apply HB|].
      eapply sim_ext; [|apply does_cons; [apply sim_out1|apply does_hook; [apply HB|apply does_cons; [apply sim_out2|apply does_nil]]]].
      intros st. unfold hseq, plain, write_output. cbn. destruct (output_data P st) as [st1 o1]. cbn.
      destruct (output_checkpoint P st1) as [st2 o2]. cbn. rewrite app_nil_r. reflexivity. }
    assert (T : does ([After RouteSediment; Before ApplySubsidence; Start ApplySubsidence;
        Before FinalizeTimestep; Start FinalizeTimestep; Before ComputeSandFrac; Start ComputeSandFrac;
        Do RaiseSeaLevel; After FinalizeTimestep; Do AdvanceClock] ++ out_events)
        (fun st => Ok (write_output P (advance_clock P (finalize_timestep P (apply_subsidence P st)))))).
    { cbn [app]. apply does_hook; [apply HA|]. apply does_hook; [apply HB|].
      eapply sim_ext; [|apply does_cons;
        [apply (sim_st _ (fun st => Ok (apply_subsidence P st))); reflexivity|
         apply does_hook; [apply HB|]; apply does_cons;
         [apply (sim_st _ (fun st => Ok (finalize_levels P st))); reflexivity|
          apply does_hook; [apply HB|]; apply does_cons;
          [apply (sim_st _ (fun st => Ok (compute_sand_frac P st))); reflexivity|
           apply does_cons;
           [apply (sim_st _ (fun st => Ok (set_H_SL (fadd (s_H_SL st) (fmul (p_SLR P) (p_dt P))) st))); reflexivity|
            apply does_hook; [apply HA|]; apply does_cons;
            [apply (sim_st _ (fun st => Ok (advance_clock P st))); reflexivity|exact O]]]]]].
      intros st. unfold hseq, plain. cbn. unfold finalize_timestep.
      destruct (write_output P _) as [? ?]. reflexivity. }
    assert (E : forall l1 l2 h1 h2, does l1 h1 -> does l2 h2 -> does (l1 ++ l2) (hseq h1 h2)).
    { intros l1 l2 h1 h2 H1 H2. eapply sim_ext_f; [|apply sim_then; [exact H1|exact H2]].
      intros x. unfold andthen. rewrite run_app. reflexivity. }
    assert (SD : does ([After RouteWater; Before RouteSediment; Start RouteSediment] ++ sed_events)
        (plain (route_sediment P))).
    { unfold sed_events. cbn [app]. apply does_hook; [apply HA|]. apply does_hook; [apply HB|].
      eapply sim_ext; [|apply does_cons; [apply sim_skip; intros [w y]; reflexivity|
        apply does_hook; [apply HB|]; apply does_cons;
        [apply (sim_st _ (fun st => Ok (init_sediment_iteration st))); reflexivity|
         apply does_hook; [apply HB|]; apply does_cons;
         [apply (sim_st _ (route_all_parcels P Sand)); reflexivity|
          apply does_hook; [apply HB|]; apply does_cons;
          [apply (sim_st _ (fun st => Ok (topo_diffusion P st))); reflexivity|
           apply does_hook; [apply HB|]; apply does_cons;
           [apply (sim_st _ (route_all_parcels P Mud)); reflexivity|apply does_nil]]]]]].
      intros st. unfold hseq, plain, route_sediment. cbn.
      destruct (route_all_parcels P Sand _) as [st1|]; cbn; [|reflexivity].
      destruct (route_all_parcels P Mud _) as [st2|]; reflexivity. }
    assert (W : forall l h, does l h -> does (water_events (Z.to_nat (p_itermax P)) 0 ++ l)
        (hseq (plain (water_iterations P (Z.to_nat (p_itermax P)) 0)) h)).
    { intros l h H. eapply sim_ext_f; [|apply sim_water; exact H]. intros x. rewrite run_app. reflexivity. }
    unfold update_events. rewrite (app_assoc [After RouteWater; _; _]).
    cbn [app]. fold (app (A:=event)).
    eapply sim_ext; [|apply does_hook; [apply HB|]; apply does_cons;
      [apply (sim_st _ (fun st => Ok (set_eta0 (s_eta st) st))); reflexivity|
       apply does_hook; [apply HB|]; apply does_cons; [apply sim_skip; intros [w y]; reflexivity|
       apply W; exact (E _ _ _ _ SD T)]]].
    intros st. unfold hseq, plain, update, solve_water_and_sediment_timestep, route_water. cbn.
    destruct (water_iterations P _ 0 _) as [st1|]; cbn; [|reflexivity].
    destruct (route_sediment P st1) as [st2|]; cbn; [|reflexivity].
    destruct (write_output P _) as [? ?]. reflexivity.
  Qed.

  Lemma update_watched : forall st ps out y,
    match update P st with
    | Ok (st', o) => exists ps' y', update_calls call false (p_itermax P) (mkWork st ps out, y)
        = Ok (mkWork st' ps' (out ++ o), y')
    | Err e => update_calls call false (p_itermax P) (mkWork st ps out, y) = Err e
    end.
  Proof.
    intros st ps out y. rewrite (update_performs call). apply update_sim.
  Qed.
End Observe.
