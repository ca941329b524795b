(** Proofs about the command line. *)
From Coq Require Import ZArith List Bool String Reals Lra Lia.
From Verif Require Import Base RLemmas Dict Config Expand ExpandSpec ExpandCor Jobs JobsSpec JobsProofs JobsInput Sched
  Cli CliSpec.
Import ListNotations.
Local Open Scope string_scope.

Section Facts.
  Context {F : Type} (int_of : string -> option Z) (float_of : string -> option F).

  (** What [process_arguments] holds under each key. *)
  Lemma arguments_get o args : process_arguments int_of float_of o = Ok args ->
    numbers int_of float_of o /\ well_formed args /\ forall k v, dget k args = Some v <-> says int_of float_of o k v.
  Proof.
    unfold process_arguments, converted. intros E.
    assert (HN : numbers int_of float_of o).
    { unfold numbers. split; [|split]; intros s Es Ef; rewrite Es in E.
      - rewrite Ef in E. discriminate.
      - destruct (o_timesteps o) as [n|]; [destruct (int_of n)|]; cbn [rbind] in E; try discriminate;
          rewrite Ef in E; discriminate.
      - destruct (o_timesteps o) as [n|]; [destruct (int_of n)|]; cbn [rbind] in E; try discriminate;
          (destruct (o_time o) as [t|]; [destruct (float_of t)|]; cbn [rbind] in E; try discriminate;
          rewrite Ef in E; discriminate). }
    split; [exact HN|].
    assert (Hw : forall k, ~ In k ["config"; "timesteps"; "time"; "time_years"; "If"; "dryrun"; "parallel"] ->
       forall v, ~ says int_of float_of o k v).
    { intros k Hk v Hs. apply Hk. inversion Hs; subst; cbn; auto 10. }
    destruct HN as (N1 & N2 & N3).
    destruct (o_timesteps o) as [sn|] eqn:En; [destruct (int_of sn) as [n|] eqn:Ein; [|destruct (N1 _ eq_refl Ein)]|];
    (destruct (o_time o) as [st|] eqn:Et; [destruct (float_of st) as [t|] eqn:Eit; [|destruct (N2 _ eq_refl Eit)]|]);
    (destruct (o_time_years o) as [sy|] eqn:Ey; [destruct (float_of sy) as [y|] eqn:Eiy; [|destruct (N3 _ eq_refl Eiy)]|]);
    (destruct (o_config o) as [p|] eqn:Ep); (destruct (o_If o) as [f|] eqn:Ef);
    (destruct (o_parallel o) as [[k0|]|] eqn:Ek); cbn [rbind app] in E; injection E as <-;
    (split; [unfold well_formed; cbn; repeat constructor; cbn; intuition discriminate|]);
    intros k v; cbn [dget];
    repeat match goal with |- context [String.eqb k ?s] => destruct (String.eqb_spec k s) as [-> |] end;
    (split; intros H;
     [try discriminate; injection H as <-; econstructor; eassumption
     |inversion H; subst; congruence]).
  Qed.

  Lemma arguments_ok o : numbers int_of float_of o -> exists args, process_arguments int_of float_of o = Ok args.
  Proof.
    intros (N1 & N2 & N3). unfold process_arguments, converted.
    destruct (o_timesteps o) as [sn|]; [destruct (int_of sn) eqn:E1; [|destruct (N1 _ eq_refl E1)]|]; cbn [rbind];
    (destruct (o_time o) as [st|]; [destruct (float_of st) eqn:E2; [|destruct (N2 _ eq_refl E2)]|]; cbn [rbind]);
    (destruct (o_time_years o) as [sy|]; [destruct (float_of sy) eqn:E3; [|destruct (N3 _ eq_refl E3)]|]; cbn [rbind]);
    eexists; reflexivity.
  Qed.
  Lemma arguments_error o e : process_arguments int_of float_of o = Err e -> e = ValueError.
  Proof.
    unfold process_arguments, converted.
    destruct (o_timesteps o) as [sn|]; [destruct (int_of sn)|]; cbn [rbind]; try congruence;
    (destruct (o_time o) as [st|]; [destruct (float_of st)|]; cbn [rbind]; try congruence);
    (destruct (o_time_years o) as [sy|]; [destruct (float_of sy)|]; cbn [rbind]; congruence).
  Qed.

  (** The file and the arguments of a command line. *)
  Lemma cli_as_python seeds reload open o d args f :
    process_arguments int_of float_of o = Ok args ->
    (match o_config o with None => Ok [] | Some p => open p end) = Ok f ->
    preprocessor_cli int_of float_of seeds reload open o d = preprocessor seeds reload (Some f) args d.
  Proof. intros Ea Ef. unfold preprocessor_cli. rewrite Ea. destruct (o_config o); [rewrite Ef|injection Ef as <-]; reflexivity. Qed.

  Lemma cli_inv seeds reload open o d d' p :
    preprocessor_cli int_of float_of seeds reload open o d = (d', Ok p) ->
    exists args f, process_arguments int_of float_of o = Ok args /\
      (match o_config o with None => Ok [] | Some p => open p end) = Ok f /\
      preprocessor seeds reload (Some f) args d = (d', Ok p).
  Proof.
    intros H. unfold preprocessor_cli in H. destruct (process_arguments _ _ o) as [args|] eqn:Ea; [|discriminate].
    destruct (o_config o) as [q|]; [destruct (open q) as [f|] eqn:Ef; [|discriminate]|].
    - exists args, f. auto.
    - exists args, []. auto.
  Qed.
End Facts.

(** End time in exact arithmetic from the three durations and the factor. *)
Lemma cli_end_time_by_timesteps (float_of : string -> option R) (c : dict (value R)) now dt v n T :
  dget "timesteps" c = Some v -> numeric v n -> cli_end_time (A:=RX) float_of c now dt = Ok T -> T = (now + n * dt)%R.
Proof.
  intros Ev Hn H. unfold cli_end_time, with_factor in H. change RX with (RA (fun x => x)) in *.
  assert (Hg : forall c', dget "timesteps" c' = Some v -> job_end_time (A:=RA (fun x => x)) c' now dt = Ok T ->
     T = (now + n * dt)%R).
  { intros c' Ec H'. apply end_time_iff in H' as (D & HD & ->). f_equal. inversion HD as [w m g _ Ew Hm|w m g _ Ew|w m g _ Ew]; try congruence.
    assert (w = v) as -> by congruence. inversion Hn; subst; inversion Hm; subst; reflexivity. }
  destruct (dget "If" c) as [w|] eqn:Ef; [|apply (Hg c Ev); exact H].
  destruct w; try (apply (Hg c Ev); exact H).
  destruct (float_of _); [|discriminate]. cbn [rbind] in H. refine (Hg _ _ H). rewrite dget_dset. exact Ev.
Qed.
