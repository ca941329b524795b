(** Property C51 (parallel scheduling). *)
From Coq Require Import ZArith List Bool Arith Lia String Floats.SpecFloat.
From Verif Require Import Base Config Init Jobs JobsSpec JobsProofs Sched SchedSpec SchedProofs.
Import ListNotations.

(** Jobs are run in parallel only on Linux and for [true] or a positive
    number, with at least one slot and no more slots than jobs; one after the
    other only for [false] or nothing; anything else is refused. *)
Theorem C51_mode :
  forall F (A : Arith F) (flag : option (value F)) linux cpus jobs m, (1 <= cpus)%Z -> (1 <= jobs)%Z ->
  run_mode flag linux cpus jobs = Ok m <-> mode linux cpus jobs flag m.
Proof. exact @run_mode_iff. Qed.
Print Assumptions C51_mode.

(** Anything but [true] and [false] that Python counts as false is refused on
    every system; elsewhere than on Linux all that counts as true is not
    implemented. *)
Theorem C51_refusals :
  forall F (A : Arith F) linux cpus jobs,
  (forall v : value F, In v [VNone; VInt 0; VStr ""; VList []; VDict []] -> run_mode (Some v) linux cpus jobs = Err ValueError) /\
  (forall v : value F, v = VBool true \/ (exists z, v = VInt z /\ z <> 0%Z) \/ (exists x l, v = VList (x :: l)) ->
     run_mode (Some v) false cpus jobs = Err NotImplementedError).
Proof.
  intros. split.
  - intros v H. cbn [In] in H. decompose [or] H; subst; try reflexivity; contradiction.
  - intros v [->|[(z & -> & Hz)|(x & l & ->)]]; try reflexivity. unfold run_mode, truthy. apply Z.eqb_neq in Hz. rewrite Hz. reflexivity.
Qed.
Print Assumptions C51_refusals.

Theorem C51_slots :
  forall F (A : Arith F) (flag : option (value F)) linux cpus jobs k, (1 <= cpus)%Z -> (1 <= jobs)%Z ->
  run_mode flag linux cpus jobs = Ok (Some k) -> (1 <= k <= jobs)%Z.
Proof. intros F A flag linux cpus jobs k H1 H2 H. apply run_mode_iff in H; auto. inversion H; lia. Qed.
Print Assumptions C51_slots.

Example C51_modes :
  run_mode (A:=F64) (Some (VBool true) : option (value sfloat)) true 8 5 = Ok (Some 5%Z) /\
  run_mode (A:=F64) (Some (VInt 2) : option (value sfloat)) true 8 5 = Ok (Some 2%Z) /\
  run_mode (A:=F64) (Some (VInt 0) : option (value sfloat)) true 8 5 = Err ValueError /\
  run_mode (A:=F64) (Some (VInt (-3)) : option (value sfloat)) true 8 5 = Err ValueError /\
  run_mode (A:=F64) (Some VNone : option (value sfloat)) true 8 5 = Err ValueError /\
  run_mode (A:=F64) (Some (VBool true) : option (value sfloat)) false 8 5 = Err NotImplementedError.
Proof. repeat split. Qed.

(** For every schedule, at every moment: no more than [K] jobs hold a slot. *)
Theorem C51_never_more_than_the_slots :
  forall n fates K k y, schedule n fates k (initial K) y -> jobs_active n y <= K.
Proof. intros n fates K k y H. apply inv_reached in H. pose proof (inv_slots _ _ _ _ H). lia. Qed.
Print Assumptions C51_never_more_than_the_slots.

(** Every schedule ends: with [n] jobs there are at most [8 n + 2] steps. *)
Theorem C51_schedules_end :
  forall n fates K k y, schedule n fates k (initial K) y -> k <= 8 * n + 2.
Proof.
  intros n fates K k y H. pose proof (schedule_bounded n fates K _ _ _ H (inv_initial n fates K)) as B.
  rewrite steps_initial in B. lia.
Qed.
Print Assumptions C51_schedules_end.

(** When nothing more can happen and every job could be constructed, the main
    process is done, every job was started and has exited, every slot is
    free, and every job has reported what it is to report. *)
Theorem C51_all_jobs_run :
  forall n fates K k y, 0 < K -> (forall i, i < n -> f_construct (fates i) = None) ->
  schedule n fates k (initial K) y -> stopped n fates y ->
  y_main y = Done /\ y_free y = K /\
  forall i, i < n -> y_stage y i = Exited /\ reports (fates i) (codes_of i (y_queue y)).
Proof.
  intros n fates K k y HK Hc H Hs. apply inv_reached in H as HI.
  destruct (stopped_final n fates K HK y HI Hs) as [H1 H2]. destruct HI as [_ I2 I3].
  destruct (y_main y) eqn:Em; try contradiction.
  - split; [reflexivity|]. split; [exact H1|]. intros i Hi. destruct I3 as [_ I3]. split; [apply I3, Hi|].
    specialize (I2 i). rewrite (I3 i Hi) in I2. cbn in I2. rewrite I2. apply job_codes_reports.
  - exfalso. destruct I3 as (i & Hi & _ & E). rewrite (Hc i Hi) in E. discriminate.
Qed.
Print Assumptions C51_all_jobs_run.

(** If the construction of a job fails, the error ends the main process: the
    jobs before it still run to their end, those after it are never started,
    and the slot taken for it is not given back. *)
Theorem C51_construction_failure :
  forall n fates K k y i e, 0 < K -> i < n -> f_construct (fates i) = Some e ->
  (forall k, k < i -> f_construct (fates k) = None) ->
  schedule n fates k (initial K) y -> stopped n fates y ->
  y_main y = Raised e /\ y_free y + 1 = K /\
  (forall k, k < i -> y_stage y k = Exited /\ reports (fates k) (codes_of k (y_queue y))) /\
  (forall k, i <= k -> y_stage y k = Absent /\ codes_of k (y_queue y) = []).
Proof.
  intros n fates K k y i e HK Hi Hc Hb H Hs. apply inv_reached in H as HI.
  destruct (stopped_final n fates K HK y HI Hs) as [H1 H2]. destruct HI as [_ I2 I3].
  destruct (y_main y) eqn:Em; try contradiction.
  - exfalso. destruct I3 as [[S1 _] _]. destruct (S1 i Hi). congruence.
  - destruct I3 as (j & Hj & [S1 S2] & E).
    assert (i = j).
    { destruct (Nat.lt_trichotomy i j) as [L|[L|L]]; auto; exfalso.
      - destruct (S1 i L). congruence.
      - rewrite (Hb j L) in E. discriminate. }
    subst j. split; [congruence|]. split; [exact H1|]. split.
    + intros m Hm. destruct (S1 m Hm) as [N _]. assert (X : y_stage y m = Exited).
      { assert (Q : active (y_stage y m) = false) by (apply H2; lia). destruct (y_stage y m); try discriminate; tauto. }
      split; [exact X|]. specialize (I2 m). rewrite X in I2. cbn in I2. rewrite I2. apply job_codes_reports.
    + intros m Hm. specialize (S2 m Hm). split; [exact S2|]. specialize (I2 m). rewrite S2 in I2. exact I2.
Qed.
Print Assumptions C51_construction_failure.

(** The codes a run reports are those of some such fate. *)
Theorem C51_codes_of_runs :
  forall F (A : Arith F) S (G : Rng F S) N (GN : NpRng N) f c nb np (j : job F S) o np' g r g',
  make_job f c nb np = Ok (j, o, np') -> run_job g j r g' -> exists fate, reports fate ((0, 0)%Z :: r_codes r).
Proof.
  intros F A S G N GN f c nb np j o np' g r g' E H. apply make_job_inv in E as (_ & _ & _ & _ & _ & _ & _ & Hf & _).
  eapply run_job_reports; eauto.
Qed.
Print Assumptions C51_codes_of_runs.

(** Without slots nothing would ever start. *)
Example C51_slots_needed : stopped 1 (fun _ => mkFate None None None) (initial 0).
Proof. intros y H. inversion H; subst; discriminate. Qed.

(** Two jobs and one slot: the first one dies from an index error, the second
    one completes; one schedule of 15 steps to the end. *)
Definition two_fates (i : nat) : fate :=
  match i with O => mkFate None (Some IndexError) None | _ => mkFate None None None end.
Example C51_case : exists y, schedule 2 two_fates 15 (initial 1) y /\ stopped 2 two_fates y /\
  y_queue y = [(0, (0, 0)%Z); (1, (0, 0)%Z); (1, (1, 0)%Z); (1, (2, 0)%Z)].
Proof.
  eexists. split; [|split].
  - eapply schedule_cons; [apply acquire; lia|]. eapply schedule_cons; [apply start; reflexivity|].
    eapply schedule_cons; [apply (begin _ _ _ 0); [lia|reflexivity]|].
    eapply schedule_cons; [apply (run _ _ _ 0); [lia|reflexivity]|].
    eapply schedule_cons; [apply (release _ _ _ 0); [lia|reflexivity]|].
    eapply schedule_cons; [apply acquire; lia|]. eapply schedule_cons; [apply start; reflexivity|].
    eapply schedule_cons; [apply (begin _ _ _ 1); [lia|reflexivity]|].
    eapply schedule_cons; [apply (run _ _ _ 1); [lia|reflexivity]|].
    eapply schedule_cons; [apply (finalize _ _ _ 1); [lia|reflexivity]|].
    eapply schedule_cons; [apply (release _ _ _ 1); [lia|reflexivity]|].
    eapply schedule_cons; [apply all_started|].
    eapply schedule_cons; [apply join; [lia|reflexivity]|]. eapply schedule_cons; [apply join; [lia|reflexivity]|].
    eapply schedule_cons; [apply all_joined|]. apply schedule_nil.
  - intros y H. inversion H as [| | | | | |m i f st q Hi Hs|m i f st q Hi Hs|m i f st q Hi Hs|m i f st q Hi Hs]; subst;
      destruct i as [|[|i]]; try lia; discriminate.
  - reflexivity.
Qed.
