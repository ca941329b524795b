(** C54: hooks. *)
From Coq Require Import ZArith List Bool Lia.
From Verif Require Import Base Params State Shared Water Sed Iter Hooks HookSpec HookProofs.
Import ListNotations.
Local Open Scope Z_scope.

(** Whatever methods and hooks do (overridden methods included), an update
    performs the calls of one list, in order, up to the first exception.  In
    this list every hook is directly before its method, the methods are in
    the documented order, each after-hook comes when its method is complete,
    and each hook occurs the documented number of times. *)
Theorem C54_update : forall itermax, 0 <= itermax -> exists l,
  (forall X (call : event -> X -> result X) x, update_calls call false itermax x = run_events call l x) /\
  hooks_adjacent l /\ methods l = update_order itermax /\
  directly_after in_water (Start RouteWater) (After RouteWater) l /\
  directly_after in_sediment (Start RouteSediment) (After RouteSediment) l /\
  directly_after in_finalize (Start FinalizeTimestep) (After FinalizeTimestep) l /\
  (forall m, count_occ event_eq_dec l (Before m) = times itermax (Before m)) /\
  (forall m, count_occ event_eq_dec l (After m) = times itermax (After m)).
Proof.
  intros itermax H. exists (update_events itermax).
  split; [intros; apply update_performs|]. split; [apply paired_adjacent, update_paired|].
  split; [apply update_methods|]. destruct (update_after itermax) as (H1 & H2 & H3).
  repeat (split; [assumption|]).
  split; intros m; apply update_count; auto; exists m; auto.
Qed.
Print Assumptions C54_update.

(** Any number of updates. *)
Theorem C54_updates : forall n itermax, exists l,
  (forall X (call : event -> X -> result X) x, updates_calls call n itermax x = run_events call (concat (repeat l n)) x) /\
  (forall X (call : event -> X -> result X) x, update_calls call false itermax x = run_events call l x) /\
  hooks_adjacent (concat (repeat l n)).
Proof.
  intros n itermax. exists (update_events itermax).
  split; [intros; apply updates_perform|]. split; [intros; apply update_performs|].
  apply paired_adjacent, concat_paired, update_paired.
Qed.
Print Assumptions C54_updates.

(** Construction, for a new run, a deferred one and a resumed one. *)
Theorem C54_construction : forall resume defer missing, exists l,
  (forall X (call : event -> X -> result X) x, init_calls call false resume defer missing x = run_events call l x) /\
  hooks_adjacent l /\ methods l = init_order resume defer missing /\
  directly_after never (Start CreateDomain) (After CreateDomain) l.
Proof.
  intros resume defer missing. exists (init_events resume defer missing).
  split; [intros; apply init_performs|]. split; [apply paired_adjacent, init_paired|].
  split; [destruct resume, defer, missing; reflexivity|].
  exists (firstn 10 (init_events resume defer missing)), [], (skipn 12 (init_events resume defer missing)).
  split; [destruct resume, defer, missing; reflexivity|constructor].
Qed.
Print Assumptions C54_construction.

(** A deprecated hook stops construction, and a finalized model its update,
    before any hook or method runs. *)
Theorem C54_refused : forall X (call : event -> X -> result X) resume defer missing itermax x,
  init_calls call true resume defer missing x = Err AttributeError /\
  update_calls call true itermax x = Err RuntimeError.
Proof. intros. split; reflexivity. Qed.
Print Assumptions C54_refused.

(** Hooks that change nothing of the model change no result: an update with
    them gives the fields, output and exceptions of one without. *)
Theorem C54_watching_hooks : forall F (A : Arith F) S (G : Rng F S) (P : params F) Y
    (obs : event -> work -> Y -> Y) st ps out y,
  match update P st with
  | Ok (st', o) => exists ps' y', update_calls (hooked_call P (only_watch obs)) false (p_itermax P) (mkWork st ps out, y)
      = Ok (mkWork st' ps' (out ++ o), y')
  | Err e => update_calls (hooked_call P (only_watch obs)) false (p_itermax P) (mkWork st ps out, y) = Err e
  end.
Proof. intros. apply update_watched. Qed.
Print Assumptions C54_watching_hooks.

(** Concrete case: two water iterations; the calls recorded by a logger. *)
Example C54_case : update_calls (fun e l => Ok (l ++ [e])) false 2 [] = Ok (update_events 2) /\
  nth_error (update_events 2) 18 = Some (Before (FinalizeWaterIteration 1)) /\
  nth_error (update_events 2) 20 = Some (After RouteWater).
Proof. repeat split. Qed.
