(** Property C85: going on from a checkpoint with another configuration. *)
From Coq Require Import ZArith List Bool Reals Lra Lia.
From Flocq Require Import Core.
From Verif Require Import Base RLemmas SharedSpec Shared Params State Water WaterSpec RunProofs Iter IterSpec FrameProofs IterProofs
  Examples Inputs Init InitSpec InitProofs Session SessionSpec ResumeProofs SessionProofs AttrProofs Assign AssignSpec AssignProofs
  QuietSpec QuietProofs Props_Iter Props_Init Props_Session BranchProofs Props_Assign ScenarioSpec ScenarioProofs.
Import ListNotations.
Local Open Scope Z_scope.

(** ** C85 *)
(** Whatever the configuration: the constants, attributes and cell types are
    those of a new model of it; the fields, clock, sea level and generator are
    those of the checkpoint. *)
Theorem C85_what_comes_from_where :
  forall (F : Type) (A : Arith F) (S N : Type) (G : Rng F S) (GN : NpRng N) (c : inputs F) (ck : checkpoint F S) missing nb (np : N) r np',
    resume (GN:=GN) c ck missing nb np = Ok (r, np') ->
    exists m, construct (G:=G) (GN:=GN) c nb np = Ok (m, np') /\ m_P r = m_P m /\ m_in r = m_in m /\ m_finalized r = false /\
      holds ck (m_st r) /\ s_cell_type (m_st r) = s_cell_type (m_st m).
Proof. intros F A S N G GN c ck missing nb np r np'. apply resume_holds. Qed.
Print Assumptions C85_what_comes_from_where.

(** With a configuration of the same domain, the run goes on from the state
    of the checkpoint with the constants of the new configuration, exactly as
    if they had been exchanged at that step. *)
Theorem C85_constants_exchanged :
  forall (F : Type) (A : Arith F) (S N : Type) (G : Rng F S) (GN : NpRng N) (c c' : inputs F) nb (np : N) k st o ck nb' np' m' np2 missing,
    run_model (G:=G) (GN:=GN) c nb np k = Ok (st, o) -> In (Checkpoint ck) o -> fnan (i_save_dt c) = false ->
    same_domain c c' -> construct (G:=G) (GN:=GN) c' nb' np' = Ok (m', np2) ->
    exists x ox r, run_model (G:=G) (GN:=GN) c nb np (Z.to_nat (c_time_iter ck)) = Ok (x, ox) /\
      resume (GN:=GN) c' ck missing nb' np' = Ok (r, np2) /\ goes_on (m_P m') x r.
Proof.
  intros F A S N G GN c c' nb np k st o ck nb' np' m' np2 missing E Hin Hn HD E'.
  destruct (checkpoint_point c nb np k st o ck E Hin Hn) as (m & np0 & x & ox & t & E0 & Ex & Hck). exists x, ox.
  destruct (resume_elsewhere c c' nb np _ m m' np0 nb' np' np2 x ox (s_save_iter x) t missing E0 Ex E' HD) as (r & Er & R1 & _ & _ & R4).
  exists r. split; [exact Ex|]. split; [rewrite Hck; exact Er|]. apply related_goes_on; assumption.
Qed.
Print Assumptions C85_constants_exchanged.

(** For the settings an update reads directly, resuming with a changed
    configuration and assigning the value to the running model are the same. *)
Theorem C85_as_assigned :
  forall (F : Type) (A : Arith F) (S N : Type) (G : Rng F S) (GN : NpRng N) (ch : change F) (c : inputs F) nb (np : N) nb' np' (m m1 : model S) missing,
    in_use (G:=G) (GN:=GN) c nb np m -> fnan (i_save_dt c) = false -> acts_at_once ch c -> apply_change ch m = Ok m1 ->
    exists r np2, resume (GN:=GN) (configured ch c) (save_the_checkpoint (m_st m)) missing nb' np' = Ok (r, np2) /\
      goes_on (m_P m1) (m_st m1) r.
Proof. intros F A S N G GN ch c nb np nb' np' m m1 missing. apply as_assigned. Qed.
Print Assumptions C85_as_assigned.

(** The other settings do count when they are changed for resuming, although
    assigned to the running model they change nothing (C82). *)
Theorem C85_counts_when_resuming :
  forall (S N : Type) (G : Rng R S) (GN : NpRng N) (ch : change R) (c : inputs R) (ck : checkpoint R S) missing nb (np : N) r np',
    resume (A:=RX) (G:=G) (GN:=GN) (configured ch c) ck missing nb np = Ok (r, np') ->
    let P := m_P r in
    match ch with
    | To_beta x => p_beta P = x
    | To_sed_lag x => p_lambda P = x
    | To_C0_percent x => p_C0 P = (x / 100)%R /\ (p_dt P * (10 * i_u0 c * (x / 100)) = IZR (p_N0 P) * i_dx c)%R
    | To_coeff_theta_sand x => p_theta_sand P = (x * i_theta_water c)%R
    | To_coeff_theta_mud x => p_theta_mud P = (x * i_theta_water c)%R
    | To_coeff_U_dep_mud x => p_U_dep_mud P = (x * i_u0 c)%R
    | To_coeff_U_ero_mud x => p_U_ero_mud P = (x * i_u0 c)%R
    | To_coeff_U_ero_sand x => p_U_ero_sand P = (x * i_u0 c)%R
    | To_subsidence_rate x => i_toggle_subsidence c = true -> forall i j, p_sigma P i j = lowering P x i
    | _ => True
    end.
Proof.
  intros S N G GN ch c ck missing nb np r np' E. cbv zeta. apply resume_holds in E as (m & E & -> & _).
  change RX with (RA (fun x => x)) in *. pose proof (construct_outcome (configured ch c) nb np) as H. rewrite E in H.
  destruct H as (Ha & Hv & _ & z & _ & _ & _ & _ & Hd & _). pose proof (de_copied _ _ Hd) as HC.
  destruct ch; try exact I; cbn [configured] in *.
  - split; [exact (de_C0 _ _ Hd)|]. destruct (de_dt _ _ Hd) as [_ K]. rewrite K.
    change (i_C0_percent (seti_C0_percent x c)) with x. change (i_u0 (seti_C0_percent x c)) with (i_u0 c). change (i_dx (seti_C0_percent x c)) with (i_dx c).
    assert (Hx : x <> 0%R) by (intros Hx; apply Hv; right; right; left; exact Hx).
    assert (Hu : i_u0 c <> 0%R) by (intros Hu; apply Hv; left; exact Hu).
    field. auto.
  - intros Ht i j. rewrite (de_sigma _ _ Hd). change (i_toggle_subsidence (seti_subsidence_rate x c)) with (i_toggle_subsidence c). rewrite Ht. reflexivity.
  - apply (de_theta _ _ Hd).
  - apply (de_theta _ _ Hd).
  - apply HC.
  - apply HC.
  - apply (de_thresholds _ _ Hd).
  - apply (de_thresholds _ _ Hd).
  - apply (de_thresholds _ _ Hd).
Qed.
Print Assumptions C85_counts_when_resuming.

(** The seed of the configuration, what is saved and how often do not matter:
    the resumed run goes through the states of the uninterrupted one.  So
    branches of one checkpoint that differ in their seeds only are all the
    same run. *)
Theorem C85_seed_and_output_do_not_matter :
  forall (F : Type) (A : Arith F) (S N : Type) (G : Rng F S) (GN : NpRng N) (c c' : inputs F) z nb (np : N) k st o ck nb' np' missing,
    run_model (G:=G) (GN:=GN) c nb np k = Ok (st, o) -> In (Checkpoint ck) o -> fnan (i_save_dt c) = false ->
    same_inputs (seti_seed z c) c' ->
    exists r np2, resume (GN:=GN) c' ck missing nb' np' = Ok (r, np2) /\
      forall n, alike (fun a b => same_point (fst a) (fst b))
        (run_model (G:=G) (GN:=GN) c nb np (Z.to_nat (c_time_iter ck) + n)) (updates (m_P r) n (m_st r)).
Proof. intros F A S N G GN c c' z nb np k st o ck nb' np' missing. apply immaterial. Qed.
Print Assumptions C85_seed_and_output_do_not_matter.

(** A configuration that can be run can also be resumed with, from any
    checkpoint of its grid, and never fails. *)
Theorem C85_never_fails :
  forall (S N : Type) (G : Rng R S) (GN : NpRng N) (c : inputs R) (ck : checkpoint R S) missing nb (np : N) t n,
    runnable c -> uniform_range G -> (forall s : S, (0 < fst (draw s))%R) -> c_save_time_since_data ck = Fin t ->
    exists r np' st o, resume (A:=RX) (GN:=GN) c ck missing nb np = Ok (r, np') /\
      updates (A:=RX) (m_P r) n (m_st r) = Ok (st, o).
Proof. intros S N G GN c ck missing nb np t n. exact (resumed_total c ck missing nb np t n). Qed.
Print Assumptions C85_never_fails.

(** *** Cases *)
(** The checkpoint that a new model writes. *)
Lemma first_checkpoint (S : Type) (G : Rng R S) (c : inputs R) nb (np : Z) : runnable c -> i_save_checkpoint c = true ->
  exists m np' st o ck, construct (A:=RX) (G:=G) (GN:=count_rng) c nb np = Ok (m, np') /\
    run_model (A:=RX) (G:=G) (GN:=count_rng) c nb np 0 = Ok (st, o) /\ In (Checkpoint ck) o /\
    c_depth ck = s_depth (m_st m) /\ c_save_time_since_data ck = Fin 0%R /\ c_time_iter ck = 0.
Proof.
  intros HR Hc. destruct (runnable_ready (G:=G) (GN:=count_rng) c nb np HR) as (m & np' & E & _).
  pose proof (construct_outcome (G:=G) (GN:=count_rng) c nb np) as K. rewrite E in K. destruct K as (_ & _ & _ & z & _ & _ & _ & _ & HD & _).
  pose proof (de_copied _ _ HD) as HC. assert (Hk : p_save_checkpoint (m_P m) = true) by (rewrite <- Hc; apply HC). clear HC HD.
  pose proof (construct_fresh (A:=RA (fun x => x)) c nb np m np' E) as (F1 & F2 & _ & F4 & _).
  set (st := set_save_time_since_checkpoint (Fin 0%R) (set_save_time_since_data (Fin 0%R) (set_save_iter (s_save_iter (m_st m) + 1) (m_st m)))).
  set (o := [Record_ (s_save_iter (m_st m)) (s_time (m_st m)) (m_st m); Checkpoint (save_the_checkpoint st)]).
  assert (Ew : write_output (A:=RA (fun x => x)) (m_P m) (m_st m) = (st, o)).
  { unfold write_output, output_data, output_checkpoint. rewrite F1. cbn. rewrite F2, Hk. reflexivity. }
  exists m, np', st, (o ++ []), (save_the_checkpoint st). split; [exact E|]. split.
  { unfold run_model, new_model. change RX with (RA (fun x => x)). rewrite E. cbn [rbind]. rewrite Ew. reflexivity. }
  split; [right; left; reflexivity|]. split; [reflexivity|]. split; [reflexivity|]. exact F4.
Qed.

(** The example configuration resumed with twice the concentration, which
    halves the time step. *)
Example C85_exchanged_hypotheses :
  exists st o ck m' np2, let c := exI (A:=RX) in let c' := seti_C0_percent (1 / 5)%R c in
    run_model (A:=RX) (G:=half_rng) (GN:=count_rng) c tt 0 0 = Ok (st, o) /\ In (Checkpoint ck) o /\ fnan (Arith:=RX) (i_save_dt c) = false /\
    same_domain c c' /\ construct (A:=RX) (G:=half_rng) (GN:=count_rng) c' tt 7 = Ok (m', np2).
Proof.
  destruct (first_checkpoint unit half_rng (exI (A:=RX)) tt 0 exI_runnable eq_refl) as (m & np & st & o & ck & _ & E1 & E2 & _).
  assert (HR : runnable (seti_C0_percent (1 / 5)%R (exI (A:=RX)))).
  { assert (accepted (seti_C0_percent (1 / 5)%R (exI (A:=RX)))) by (constructor; cbn; try lra; try lia; intros t E; discriminate).
    constructor; auto; cbn; try lra; try lia; intros t E; discriminate. }
  destruct (runnable_ready (G:=half_rng) (GN:=count_rng) _ tt 7 HR) as (m' & np2 & E3 & _).
  exists st, o, ck, m', np2. split; [exact E1|]. split; [exact E2|]. split; [reflexivity|]. split; [constructor; reflexivity|exact E3].
Qed.

(** Another seed and no more checkpoints. *)
Example C85_immaterial_hypotheses :
  same_inputs (seti_seed (Some 11) (exI (A:=RX))) (seti_save_checkpoint false (seti_seed (Some 11) (exI (A:=RX)))).
Proof. reflexivity. Qed.

(** The hypotheses of [C85_as_assigned] are those of C82; see
    [C82_acts_hypotheses]. *)

(** The width of the inlet is not such a setting.  Resuming with a wider inlet
    makes channel cells of cells that are still dry land; every new model with
    that inlet has them at the depth of the channel. *)
Definition exW : inputs R := seti_Width 3000%R (exI (A:=RX)).
Lemma exW_runnable x : (0 < x)%R -> runnable (seti_N0_meters x exW).
Proof.
  intros Hx. assert (accepted (seti_N0_meters x exW)) by (constructor; cbn; try lra; try lia; intros t E; discriminate).
  constructor; auto; cbn; try lra; try lia; intros t E; discriminate.
Qed.
Lemma exW_domain (n : Z) (m : model unit) np0 np : 3 <= n <= 15 ->
  construct (A:=RX) (G:=half_rng) (GN:=count_rng) (seti_N0_meters (IZR n * 50)%R exW) tt np0 = Ok (m, np) -> Z.even n = true ->
  inb (p_L (m_P m)) (p_W (m_P m)) 0 25 /\ s_cell_type (m_st m) 0 25 = (if (30 - n / 2 <=? 25) && (25 <? 30 - n / 2 + n) then CHANNEL else LAND) /\
  s_depth (m_st m) 0 25 = if s_cell_type (m_st m) 0 25 =? CHANNEL then 5%R else 0%R.
Proof.
  intros Hn E Hev. change RX with (RA (fun x => x)) in *.
  pose proof (construct_outcome (G:=half_rng) (GN:=count_rng) (seti_N0_meters (IZR n * 50)%R exW) tt np0) as K. rewrite E in K.
  destruct K as (_ & _ & _ & z & _ & _ & _ & _ & HD & HI & HL & _).
  destruct (de_rows _ _ HD) as [D1 _]. destruct (de_cols _ _ HD) as [D2 _]. destruct (de_N0 _ _ HD) as (k & Dk & D4). destruct (de_L0 _ _ HD) as (q & Dq & D3).
  assert (HLn : p_L (m_P m) = 12).
  { apply (rounded_unique (600 / 50)%R); [exact D1|]. split; [|intros _; reflexivity]. replace (IZR 12 - 600 / 50)%R with 0%R by lra. rewrite Rabs_R0. lra. }
  assert (HW : p_W (m_P m) = 60).
  { apply (rounded_unique (3000 / 50)%R); [exact D2|]. split; [|intros _; reflexivity]. replace (IZR 60 - 3000 / 50)%R with 0%R by lra. rewrite Rabs_R0. lra. }
  assert (Hk : k = n).
  { apply (rounded_unique (IZR n * 50 / 50)%R); [exact Dk|]. split; [|intros _; exact Hev]. replace (IZR n - IZR n * 50 / 50)%R with 0%R by lra. rewrite Rabs_R0. lra. }
  assert (HL0 : 1 <= p_L0 (m_P m)) by (rewrite D3; lia).
  rewrite HW, Hk in D4. change (60 / 4) with 15 in D4. replace (Z.max 3 (Z.min n 15)) with n in D4 by lia.
  destruct HL as [first HL]; [lia|].
  pose proof (la_centre _ _ _ HL) as Hc. rewrite HW in Hc. change (p_CTR (m_P m) = 29) in Hc.
  assert (Hf : first = 30 - n / 2).
  { destruct (la_first _ _ _ HL) as (half & Hf & Hh). rewrite Hc in Hf. rewrite D4 in Hh.
    apply Z.even_spec in Hev as [h Hh2]. subst n. rewrite (Z.mul_comm 2 h), Z.div_mul by lia. destruct Hh as [Hh|[Hh _]]; lia. }
  assert (Hin : inb (p_L (m_P m)) (p_W (m_P m)) 0 25) by (rewrite HLn, HW; split; lia).
  split; [exact Hin|]. split.
  - rewrite (la_strip _ _ _ HL 0 25 Hin) by lia. rewrite Hf, D4. reflexivity.
  - rewrite (in_depth _ _ _ HI 0 25 Hin). replace (p_L0 (m_P m) <=? 0) with false by (symmetry; apply Z.leb_gt; lia). reflexivity.
Qed.
Theorem C85_wider_inlet_refuted :
  exists (c c' : inputs R) st o ck r np, c' = seti_N0_meters 500%R c /\ runnable c /\ runnable c' /\
    run_model (A:=RX) (G:=half_rng) (GN:=count_rng) c tt 0 0 = Ok (st, o) /\ In (Checkpoint ck) o /\
    resume (A:=RX) (G:=half_rng) (GN:=count_rng) c' ck false tt 0 = Ok (r, np) /\
    s_cell_type (m_st r) 0 25 = CHANNEL /\ s_depth (m_st r) 0 25 = 0%R /\
    (forall m np0 np', construct (A:=RX) (G:=half_rng) (GN:=count_rng) c' tt np0 = Ok (m, np') ->
       s_cell_type (m_st m) 0 25 = CHANNEL /\ s_depth (m_st m) 0 25 = 5%R).
Proof.
  set (c := seti_N0_meters (IZR 4 * 50)%R exW). set (c' := seti_N0_meters (IZR 10 * 50)%R exW).
  destruct (first_checkpoint unit half_rng c tt 0 (exW_runnable (IZR 4 * 50) ltac:(lra)) eq_refl) as (m & np & st & o & ck & E0 & E1 & E2 & E3 & E4 & _).
  destruct (C85_never_fails unit Z half_rng count_rng c' ck false tt 0 0%R 0 (exW_runnable (IZR 10 * 50) ltac:(lra)) half_rng_range half_rng_pos E4)
    as (r & np' & _ & _ & Er & _).
  exists c, c', st, o, ck, r, np'.
  split; [unfold c, c'; replace (IZR 10 * 50)%R with 500%R by lra; reflexivity|].
  split; [apply exW_runnable; lra|]. split; [apply exW_runnable; lra|]. split; [exact E1|]. split; [exact E2|]. split; [exact Er|].
  destruct (resume_holds _ _ _ _ _ _ _ Er) as (m2 & E5 & _ & _ & _ & Hh & Ht).
  destruct (exW_domain 4 m 0 np ltac:(lia) E0 eq_refl) as (_ & A1 & A2). destruct (exW_domain 10 m2 0 np' ltac:(lia) E5 eq_refl) as (_ & B1 & B2).
  split; [rewrite Ht, B1; reflexivity|]. split; [rewrite (ho_depth _ _ Hh), E3, A2, A1; reflexivity|].
  intros m3 np0 np3 E6. destruct (exW_domain 10 m3 np0 np3 ltac:(lia) E6 eq_refl) as (_ & C1 & C2). split; [exact C1|rewrite C2, C1; reflexivity].
Qed.
Print Assumptions C85_wider_inlet_refuted.
