(** Runs that are interrupted, resumed and branched. *)
From Coq Require Import ZArith List Bool String.
From Verif Require Import Base Dict Config Params State Iter Inputs Init InitSpec Session SessionSpec Switches Records Branch.
Import ListNotations.
Local Open Scope Z_scope.

Section BranchSpec.
  Context {F : Type} {A : Arith F} {S N : Type} {G : Rng F S} {GN : NpRng N}.
  Context (store : F -> F) (w : writer) (c : inputs F) (nb : S) (np : N).

  (** Nothing was ever written to the folder. *)
  Definition unused (p : place F S) : Prop := out_file p = None /\ saved p = None.

  (** What a user may do with one configuration: begin the run in an unused
      folder; go on in a folder; branch off from any folder into an unused
      one.  All of these may be stopped at any time.  Runs begin with the
      generators [nb] and [np]; everything else may find them in any state. *)
  Inductive history : folders F S -> Prop :=
  | untouched d : (forall s, unused (d s)) -> history d
  | begin own n d st lost d' : history d -> unused (d own) ->
      session (GN:=GN) store w c own (VBool false) nb np n d st lost d' -> history d'
  | go_on own nb' np' n d st lost d' : history d ->
      session (GN:=GN) store w c own (VBool true) nb' np' n d st lost d' -> history d'
  | branch own src nb' np' n d st lost d' : history d -> unused (d own) ->
      session (GN:=GN) store w c own (VStr src) nb' np' n d st lost d' -> history d'.

  (** At every step of the run a whole number of seconds has passed since the
      last record. *)
  Definition whole_seconds : Prop :=
    forall j x ox t, run_model (G:=G) (GN:=GN) c nb np j = Ok (x, ox) -> s_save_time_since_data x = Fin t -> fz (ftrunc t) = t.

  (** A file holds the first entries of the uninterrupted run from its entry
      number [b] on. *)
  Definition holds_from (b : nat) (f : ncfile F) : Prop :=
    exists T whole more, run_file store (G:=G) (GN:=GN) w c nb np T = Ok whole /\
      (b <= List.length whole)%nat /\ skipn b whole = (f ++ more)%list.
  (** All entries of the uninterrupted run up to update [T], from its entry
      number [b] on, are in the file. *)
  Definition complete_to (b T : nat) (f : ncfile F) : Prop :=
    exists whole more, run_file store (G:=G) (GN:=GN) w c nb np T = Ok whole /\ f = (skipn b whole ++ more)%list.

  (** A checkpoint shows the uninterrupted run; records are counted from the
      [b]-th. *)
  Definition shows_point (b : nat) (ck : checkpoint F S) : Prop :=
    exists x ox, run_model (G:=G) (GN:=GN) c nb np (Z.to_nat (c_time_iter ck)) = Ok (x, ox) /\
      ck = save_the_checkpoint (set_save_iter (s_save_iter x - Z.of_nat b) x) /\ 0 <= c_time_iter ck /\ 0 <= c_save_iter ck.
  (** The folder shows the uninterrupted run from its entry number [b] on: the
      output file holds its first entries, and the checkpoint is one of its
      points, not later than what the file shows. *)
  Definition keeps (b : nat) (p : place F S) : Prop :=
    exists f, out_file p = Some f /\ holds_from b f /\
      forall ck, saved p = Some ck -> shows_point b ck /\ c_save_iter ck <= Z.of_nat (List.length f).
End BranchSpec.
