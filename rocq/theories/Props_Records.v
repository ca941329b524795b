(** Properties C67 and C68: the contents of the output file. *)
From Coq Require Import ZArith List Bool String Reals Lra Lia.
From Flocq Require Import Core.
From Verif Require Import Base RLemmas Dict Shared Params State Water Sed RunProofs Iter IterSpec FrameProofs IterProofs
  Examples Inputs Init InitSpec InitProofs Session SessionSpec ResumeProofs SessionProofs AttrProofs Switches SwitchSpec
  SwitchProofs Records RecordsSpec RecordsProofs Props_Iter Props_Init Props_Session.
Import ListNotations.
Local Open Scope Z_scope.

(** ** C67 *)
(** The output file of a run, for any choice of switches that saves something:
    entry [k] shows the model as it was after some number of updates; these
    numbers increase from zero, no entry is empty, and there are as many
    entries as the run wrote records (C33 says when).  For every arithmetic,
    random generator, configuration and number of updates; [store] is the
    rounding to four-byte floats in the file. *)
Theorem C67_file_shows_the_run :
  forall (F : Type) (A : Arith F) (S N : Type) (G : Rng F S) (GN : NpRng N) (store : F -> F) x on md ts,
    selects x on -> metas_on on md ->
  forall (c : inputs F) nb np n st o,
    run_model (G:=G) (GN:=GN) c nb np n = Ok (st, o) -> fnan (i_save_dt c) = false ->
    exists f us, run_file store (G:=G) (GN:=GN) (open_writer x md ts) c nb np n = Ok f /\
      List.length f = List.length (shown_records o) /\
      List.length us = List.length f /\ hd_error us = Some O /\ increasing us /\ Forall (fun u => (u <= n)%nat) us /\
      forall k, (k < List.length f)%nat -> exists e su ou, entry_at f k = Some e /\
        run_model (G:=G) (GN:=GN) c nb np (nth k us O) = Ok (su, ou) /\ shows store on c su e.
Proof. intros F A S N G GN store x on md ts HS HM c nb np n st o. exact (file_shows store x on md ts HS HM c nb np n st o). Qed.
Print Assumptions C67_file_shows_the_run.

(** Entries are only ever added: going on with a run leaves all earlier
    entries as they are. *)
Theorem C67_entries_are_kept :
  forall (F : Type) (A : Arith F) (S N : Type) (G : Rng F S) (GN : NpRng N) (store : F -> F) x on md ts,
    selects x on -> metas_on on md ->
  forall (c : inputs F) nb np k n st o,
    run_model (G:=G) (GN:=GN) c nb np (k + n) = Ok (st, o) -> fnan (i_save_dt c) = false ->
    exists f g, run_file store (G:=G) (GN:=GN) (open_writer x md ts) c nb np k = Ok f /\
      run_file store (G:=G) (GN:=GN) (open_writer x md ts) c nb np (k + n) = Ok (f ++ g)%list.
Proof. intros F A S N G GN store x on md ts HS HM c nb np k n st o. exact (file_grows store x on md ts HS HM c nb np k n st o). Qed.
Print Assumptions C67_entries_are_kept.

(** Non-trivial case: bed and both velocity components of two updates. *)
Example C67_hypotheses : exists x st o,
  selects x (fun s => same_switch s (Grd GEta) || same_switch s (Grd GVelocityXY)) /\
  metas_on (fun s => same_switch s (Grd GEta) || same_switch s (Grd GVelocityXY)) false /\
  run_model (A:=RX) (G:=half_rng) (GN:=count_rng) exD tt 0 2 = Ok (st, o) /\ fnan (Arith:=RX) (i_save_dt exD) = false.
Proof.
  destruct (configured_ok (fun s => same_switch s (Grd GEta) || same_switch s (Grd GVelocityXY))) as (x & _ & Hx).
  destruct (runnable_runs (G:=half_rng) (GN:=count_rng) exD tt 0 2 exD_runnable half_rng_range half_rng_pos) as (st & o & E).
  exists x, st, o. split; [exact Hx|]. split; [right; exists GEta; reflexivity|]. split; [exact E|reflexivity].
Qed.

(** ** C68 *)
(** After a resume from any checkpoint of a run, with the output file in
    place, whatever the file holds past the records counted by the checkpoint
    (records of the interrupted run, or one written in part): once the resumed
    run has made [n] updates the file begins with exactly what the
    uninterrupted run would have saved by then; entries past those are
    untouched.  The time since the last record must be whole (see C36). *)
Theorem C68_resumed_file :
  forall (F : Type) (A : Arith F) (S N : Type) (G : Rng F S) (GN : NpRng N) (store : F -> F) x on md ts,
    selects x on -> metas_on on md ->
  forall (c : inputs F) nb np k st o ck t nb' np' r np2 n st' o',
    run_model (G:=G) (GN:=GN) c nb np k = Ok (st, o) -> In (Checkpoint ck) o -> fnan (i_save_dt c) = false ->
    c_save_time_since_data ck = Fin t -> fz (ftrunc t) = t ->
    resume (GN:=GN) c ck false nb' np' = Ok (r, np2) -> updates (m_P r) n (m_st r) = Ok (st', o') ->
    exists whole, run_file store (G:=G) (GN:=GN) (open_writer x md ts) c nb np (Z.to_nat (c_time_iter ck) + n) = Ok whole /\
      forall f, firstn (Z.to_nat (c_save_iter ck)) f = firstn (Z.to_nat (c_save_iter ck)) whole ->
        write_all store (open_writer x md ts) (m_in r) (m_P r) o' f = Ok (whole ++ skipn (List.length whole) f)%list.
Proof.
  intros F A S N G GN store x on md ts HS HM c nb np k st o ck t nb' np' r np2 n st' o' E Hc Hn Ht Hw Er Eu.
  destruct (resumed_file store x on md ts HS HM c nb np k st o ck t nb' np' false r np2 n st' o' _ E Hc Hn Ht Hw Er Eu eq_refl)
    as (ft & Ef & _ & _ & H & _). exists ft. split; [exact Ef|]. exact (H eq_refl).
Qed.
Print Assumptions C68_resumed_file.

(** A run that stops after [k] updates and is resumed from one of its
    checkpoints leaves the file that one uninterrupted run would have left,
    however far either part went: no record is lost, repeated or out of
    place. *)
Theorem C68_interrupted_and_resumed :
  forall (F : Type) (A : Arith F) (S N : Type) (G : Rng F S) (GN : NpRng N) (store : F -> F) x on md ts,
    selects x on -> metas_on on md ->
  forall (c : inputs F) nb np k st o ck t nb' np' r np2 n st' o',
    run_model (G:=G) (GN:=GN) c nb np k = Ok (st, o) -> In (Checkpoint ck) o -> fnan (i_save_dt c) = false ->
    c_save_time_since_data ck = Fin t -> fz (ftrunc t) = t ->
    resume (GN:=GN) c ck false nb' np' = Ok (r, np2) -> updates (m_P r) n (m_st r) = Ok (st', o') ->
    exists f, run_file store (G:=G) (GN:=GN) (open_writer x md ts) c nb np k = Ok f /\
      write_all store (open_writer x md ts) (m_in r) (m_P r) o' f =
      run_file store (G:=G) (GN:=GN) (open_writer x md ts) c nb np (Nat.max k (Z.to_nat (c_time_iter ck) + n)).
Proof.
  intros F A S N G GN store x on md ts HS HM c nb np k st o ck t nb' np' r np2 n st' o' E Hc Hn Ht Hw Er Eu.
  exact (crashed_file store x on md ts HS HM c nb np k st o ck t nb' np' r np2 n st' o' _ E Hc Hn Ht Hw Er Eu eq_refl).
Qed.
Print Assumptions C68_interrupted_and_resumed.

(** When the output file is gone, the new one holds exactly the records that
    the uninterrupted run would have saved after the checkpoint. *)
Theorem C68_missing_file :
  forall (F : Type) (A : Arith F) (S N : Type) (G : Rng F S) (GN : NpRng N) (store : F -> F) x on md ts,
    selects x on -> metas_on on md ->
  forall (c : inputs F) nb np k st o ck t nb' np' r np2 n st' o',
    run_model (G:=G) (GN:=GN) c nb np k = Ok (st, o) -> In (Checkpoint ck) o -> fnan (i_save_dt c) = false ->
    c_save_time_since_data ck = Fin t -> fz (ftrunc t) = t ->
    resume (GN:=GN) c ck true nb' np' = Ok (r, np2) -> updates (m_P r) n (m_st r) = Ok (st', o') ->
    exists before after,
      run_file store (G:=G) (GN:=GN) (open_writer x md ts) c nb np (Z.to_nat (c_time_iter ck)) = Ok before /\
      run_file store (G:=G) (GN:=GN) (open_writer x md ts) c nb np (Z.to_nat (c_time_iter ck) + n) = Ok (before ++ after)%list /\
      write_all store (open_writer x md ts) (m_in r) (m_P r) o' [] = Ok after.
Proof.
  intros F A S N G GN store x on md ts HS HM c nb np k st o ck t nb' np' r np2 n st' o' E Hc Hn Ht Hw Er Eu.
  destruct (resumed_file store x on md ts HS HM c nb np k st o ck t nb' np' true r np2 n st' o' _ E Hc Hn Ht Hw Er Eu eq_refl)
    as (ft & Ef & Ej & _ & _ & H). specialize (H eq_refl).
  exists (firstn (Z.to_nat (c_save_iter ck)) ft), (skipn (Z.to_nat (c_save_iter ck)) ft).
  split; [exact Ej|]. split; [rewrite firstn_skipn; exact Ef|exact H].
Qed.
Print Assumptions C68_missing_file.

(** Non-trivial case: the checkpoint made at the start of a run of two
    updates, resumed for three. *)
Example C68_hypotheses : forall missing, exists st o ck r np2 st' o',
  run_model (A:=RX) (G:=half_rng) (GN:=count_rng) exD tt 0 2 = Ok (st, o) /\ In (Checkpoint ck) o /\
  c_save_time_since_data ck = Fin 0%R /\ fz (Arith:=RX) (ftrunc (Arith:=RX) 0%R) = 0%R /\
  resume (A:=RX) (G:=half_rng) (GN:=count_rng) exD ck missing tt 5 = Ok (r, np2) /\
  updates (A:=RX) (G:=half_rng) (m_P r) 3 (m_st r) = Ok (st', o').
Proof.
  intros missing. change RX with (RA (fun x => x)).
  destruct (runnable_runs (G:=half_rng) (GN:=count_rng) exD tt 0 2 exD_runnable half_rng_range half_rng_pos) as (st & o & E).
  destruct (runnable_runs (G:=half_rng) (GN:=count_rng) exD tt 0 3 exD_runnable half_rng_range half_rng_pos) as (st3 & o3 & E3).
  pose proof E as Ei. apply run_model_inv in Ei as (m & np & st1 & o0 & o1 & Ec & Ew & Eu & Eo).
  destruct (exD_step m np Ec) as (Hdt & Hsv & Hcd & Hck).
  pose proof (construct_fresh (A:=RA (fun x => x)) exD tt 0 m np Ec) as (F1 & F2 & F3 & F4 & _).
  assert (Hc : In (Checkpoint (save_the_checkpoint st1)) o0 /\ s_save_time_since_data st1 = Fin 0%R /\ s_time_iter st1 = 0).
  { unfold write_output, output_data in Ew. rewrite F1 in Ew. cbn -[output_checkpoint] in Ew.
    unfold output_checkpoint in Ew. cbn -[save_the_checkpoint] in Ew. rewrite F2, Hck in Ew. cbn -[save_the_checkpoint] in Ew.
    injection Ew as <- <-. split; [right; left; reflexivity|]. cbn. rewrite F4. auto. }
  destruct Hc as (Hc & Hs & Hi).
  assert (HI : In (Checkpoint (save_the_checkpoint st1)) o) by (rewrite Eo; apply in_or_app; auto).
  assert (H0 : fz (Arith:=RA (fun x => x)) (ftrunc (Arith:=RA (fun x => x)) 0%R) = 0%R).
  { cbn. change 0%R with (IZR 0) at 1. rewrite Ztrunc_IZR. reflexivity. }
  destruct (resumed_records (A:=RA (fun x => x)) (G:=half_rng) (GN:=count_rng) exD tt 0 2 st o _ 0%R tt 5 missing E HI eq_refl Hs H0)
    as (r & np2 & ox & Er & _ & HA).
  specialize (HA 3%nat). cbn [c_time_iter save_the_checkpoint] in HA. rewrite Hi in HA. cbn [Z.to_nat Nat.add] in HA.
  rewrite E3 in HA. destruct (updates (m_P r) 3 (m_st r)) as [[st' o']|] eqn:Eu'; [|destruct HA].
  exists st, o, (save_the_checkpoint st1), r, np2, st', o'. repeat split; auto.
Qed.
