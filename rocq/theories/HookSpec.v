(** The documented order of methods and hooks. *)
From Coq Require Import ZArith List Bool.
From Verif Require Import Base Hooks.
Import ListNotations.
Local Open Scope Z_scope.

Definition event_eq_dec (a b : event) : {a = b} + {a <> b}.
Proof. decide equality; decide equality; apply Z.eq_dec. Defined.

(** Performing a list of calls in order, up to the first exception. *)
Fixpoint run_events {X} (call : event -> X -> result X) (l : list event) (x : X) : result X :=
  match l with
  | [] => Ok x
  | e :: l' => match call e x with Ok y => run_events call l' y | Err r => Err r end
  end.

(** Every method call is immediately preceded by its hook, and every hook is
    immediately followed by its method. *)
Definition hooks_adjacent (l : list event) : Prop :=
  (forall l1 m l2, l = l1 ++ Start m :: l2 -> exists l0, l1 = l0 ++ [Before m]) /\
  (forall l1 m l2, l = l1 ++ Before m :: l2 -> exists l3, l2 = Start m :: l3).

Definition methods (l : list event) : list event :=
  filter (fun e => match e with Start _ | Do _ => true | _ => false end) l.

Definition iteration_numbers (itermax : Z) : list Z := map Z.of_nat (seq 0 (Z.to_nat itermax)).

(** One update. *)
Definition update_order (itermax : Z) : list event :=
  [Start Solve; Start RouteWater] ++
  flat_map (fun it => [Start InitWaterIteration; Start RunWaterIteration; Start ComputeFreeSurface;
                       Start (FinalizeWaterIteration it)]) (iteration_numbers itermax) ++
  [Start RouteSediment; Start InitSedimentIteration; Start RouteSand; Start TopoDiffusion; Start RouteMud;
   Start ApplySubsidence; Start FinalizeTimestep; Start ComputeSandFrac; Do RaiseSeaLevel; Do AdvanceClock;
   Start OutputData; Start OutputCheckpoint].

(** [a] happens before [b] and everything between is in [inside]. *)
Definition directly_after (inside : event -> Prop) (a b : event) (l : list event) : Prop :=
  exists l1 l2 l3, l = l1 ++ a :: l2 ++ b :: l3 /\ Forall inside l2.

Definition in_water (e : event) : Prop :=
  match e with
  | Before m | Start m =>
      match m with
      | InitWaterIteration | RunWaterIteration | ComputeFreeSurface | FinalizeWaterIteration _ => True
      | _ => False
      end
  | _ => False
  end.
Definition in_sediment (e : event) : Prop :=
  match e with
  | Before m | Start m =>
      match m with InitSedimentIteration | RouteSand | TopoDiffusion | RouteMud => True | _ => False end
  | _ => False
  end.
Definition in_finalize (e : event) : Prop :=
  match e with Before ComputeSandFrac | Start ComputeSandFrac | Do RaiseSeaLevel => True | _ => False end.

(** How often a hook runs in one update. *)
Definition times (itermax : Z) (e : event) : nat :=
  match e with
  | Before m =>
      match m with
      | ImportFiles | ProcessInput | CreateOtherVariables | CreateDomain | LoadCheckpoint | InitOutputFile => 0
      | InitWaterIteration | RunWaterIteration | ComputeFreeSurface => Z.to_nat itermax
      | FinalizeWaterIteration it => if (0 <=? it) && (it <? itermax) then 1 else 0
      | _ => 1
      end
  | After m => match m with RouteWater | RouteSediment | FinalizeTimestep => 1 | _ => 0 end
  | _ => 0
  end.

(** Construction. *)
Definition init_order (resume defer missing : bool) : list event :=
  [Start ImportFiles; Do InitOutputInfrastructure; Do InitLogger; Start ProcessInput; Do DetermineRandomSeed;
   Start CreateOtherVariables; Start CreateDomain; Do InitSedimentRouters; Do InitSubsidence] ++
  match resume, defer, missing with
  | true, _, true => [Start LoadCheckpoint; Start InitOutputFile]
  | true, _, false => [Start LoadCheckpoint]
  | false, true, _ => []
  | false, false, _ => [Start InitOutputFile; Start OutputData; Start OutputCheckpoint]
  end.
Definition never (e : event) : Prop := False.

(** Hooks that look at the model and change only values of their own. *)
Definition only_watch {F S Y} (obs : event -> work (F:=F) (S:=S) -> Y -> Y) (e : event) (x : work * Y)
  : result (work * Y) := Ok (fst x, obs e (fst x) (snd x)).
