(** Proofs about the files of a run. *)
From Coq Require Import List Bool Lia Arith.
From Verif Require Import Base Files FilesSpec.
Import ListNotations.

Section FilesProofs.
  Context {U V C : Type}.
  Notation folder := (folder U V C).

  Lemma run_ops_app : forall (a b : list (folder -> folder)) f, run_ops (a ++ b) f = run_ops b (run_ops a f).
  Proof. intros. unfold run_ops. apply fold_left_app. Qed.

  (** A property kept by every operation holds at every crash point. *)
  Lemma crash_inv : forall (P : folder -> Prop) ops, (forall op f, In op ops -> P f -> P (op f)) ->
    forall k f, P f -> P (run_ops (firstn k ops) f).
  Proof.
    intros P ops. induction ops as [|op ops IH]; intros H k f Hf; [destruct k; exact Hf|].
    destruct k as [|k]; [exact Hf|]. cbn. apply IH; [intros; apply H; auto; now right|]. apply H; [now left|exact Hf].
  Qed.

  Lemma puts_out : forall (mid : list (file (dataset U V))) (f : folder),
    fo_old (run_ops (map (fun x => put_out (Some x)) mid) f) = fo_old f /\
    fo_ckp (run_ops (map (fun x => put_out (Some x)) mid) f) = fo_ckp f.
  Proof.
    induction mid as [|x mid IH]; intros f; [split; reflexivity|]. cbn. destruct (IH (put_out (Some x) f)) as [H1 H2].
    unfold run_ops in *. rewrite H1, H2. split; reflexivity.
  Qed.
  Lemma puts_ckp : forall (mid : list (file C)) (f : folder),
    fo_old (run_ops (map (fun x => put_ckp (Some x)) mid) f) = fo_old f /\
    fo_out (run_ops (map (fun x => put_ckp (Some x)) mid) f) = fo_out f.
  Proof.
    induction mid as [|x mid IH]; intros f; [split; reflexivity|]. cbn. destruct (IH (put_ckp (Some x) f)) as [H1 H2].
    unfold run_ops in *. rewrite H1, H2. split; reflexivity.
  Qed.

  (** ** Resuming *)
  Lemma resume_keeps : forall (no_units : U) saving clobber defer new mid (f : folder) v k,
    has_data v (fo_out f) ->
    data_kept v (crash_after k (load_checkpoint no_units saving clobber defer new mid f) f).
  Proof.
    intros no_units saving clobber defer new mid f v k [u Hu].
    assert (H0 : data_kept v f) by (left; exists u; exact Hu).
    unfold load_checkpoint. destruct (fo_ckp f) as [[c|c|]|]; try (destruct k; exact H0).
    destruct (saving && negb defer); [|destruct k; exact H0]. rewrite Hu.
    unfold crash_after. cbn [fst]. destruct k as [|k]; [exact H0|].
    set (ops := put_out (Some Torn) :: map (fun x => put_out (Some x)) mid).
    change (firstn (S k) ((rename :: ops) ++ [put_out (Some (Whole (copy no_units (mkDataset u v)))); put_old None]))
      with (rename :: firstn k (ops ++ [put_out (Some (Whole (copy no_units (mkDataset u v)))); put_old None])).
    cbn [run_ops fold_left]. set (f1 := rename f).
    assert (H1 : has_data v (fo_old f1)) by (exists u; exact Hu).
    assert (K : forall j, has_data v (fo_old (run_ops (firstn j ops) f1))).
    { intros j. apply (crash_inv (fun f => has_data v (fo_old f))); [|exact H1].
      intros op g Hop Hg. destruct Hop as [<-|Hop]; [exact Hg|]. apply in_map_iff in Hop as (x & <- & _). exact Hg. }
    change (fold_left (fun f op => op f) ?l f1) with (run_ops l f1).
    destruct (Nat.le_gt_cases k (length ops)) as [L|L].
    - rewrite firstn_app. replace (k - length ops) with 0 by lia. cbn [firstn]. rewrite app_nil_r. right. apply K.
    - rewrite firstn_app. rewrite firstn_all2 by lia. rewrite run_ops_app.
      specialize (K (length ops)). rewrite firstn_all in K.
      destruct (k - length ops) as [|[|j]] eqn:E; [lia| |].
      + cbn. right. exact K.
      + replace (firstn (S (S j)) _) with [put_out (C:=C) (Some (Whole (copy no_units (mkDataset u v)))); put_old None]
          by (cbn; destruct j; reflexivity).
        left. exists no_units. reflexivity.
  Qed.

  Lemma resume_done : forall (no_units : U) clobber new mid (f : folder) u v c,
    fo_ckp f = Some (Whole c) -> fo_out f = Some (Whole (mkDataset u v)) ->
    let p := load_checkpoint no_units true clobber false new mid f in
    snd p = None /\
    finished p f = mkFolder (Some (Whole (mkDataset no_units v))) None (Some (Whole c)).
  Proof.
    intros no_units clobber new mid f u v c Hc Hu. unfold load_checkpoint. rewrite Hc, Hu. cbn [negb andb]. cbn zeta.
    split; [reflexivity|]. unfold finished. cbn [fst]. rewrite run_ops_app. cbn [run_ops fold_left].
    unfold put_old, put_out. cbn [fo_out fo_old fo_ckp].
    destruct (puts_out mid (put_out (Some Torn) (rename f))) as [_ H]. unfold run_ops in H.
    unfold put_out in H. rewrite H. cbn. rewrite Hc. reflexivity.
  Qed.

  Lemma resume_refused : forall (no_units : U) saving clobber defer new mid (f : folder),
    ~ checkpoint_readable f \/ saving = true /\ defer = false /\ fo_out f = Some Torn ->
    exists e, load_checkpoint no_units saving clobber defer new mid f = ([], Some e).
  Proof.
    intros no_units saving clobber defer new mid f H. unfold load_checkpoint.
    destruct (fo_ckp f) as [[c|c|]|] eqn:E; eauto. destruct H as [H|(-> & -> & H)].
    - exfalso. apply H. exists c. exact E.
    - rewrite H. cbn. eauto.
  Qed.

  (** ** Checkpoints *)
  Lemma checkpoint_done : forall c mid (f : folder), fo_ckp (finished (save_the_checkpoint c mid) f) = Some (Whole c).
  Proof. intros c mid f. unfold finished, save_the_checkpoint. cbn [fst]. rewrite run_ops_app. reflexivity. Qed.

  Lemma checkpoint_points : forall c mid (f : folder) k,
    let p := save_the_checkpoint c mid in
    let f' := crash_after k p f in
    fo_out f' = fo_out f /\ fo_old f' = fo_old f /\
    (k = 0 -> f' = f) /\ (length (fst p) <= k -> fo_ckp f' = Some (Whole c)) /\
    (unfinished mid -> 0 < k < length (fst p) -> ~ checkpoint_readable f').
  Proof.
    intros c mid f k p f'.
    assert (H : fo_out f' = fo_out f /\ fo_old f' = fo_old f).
    { apply (crash_inv (fun g => fo_out g = fo_out f /\ fo_old g = fo_old f)); [|split; reflexivity].
      intros op g Hop [Hg1 Hg2]. apply in_app_iff in Hop as [[<-|Hop]|[<-|[]]]; [split; assumption| |split; assumption].
      apply in_map_iff in Hop as (x & <- & _). split; assumption. }
    destruct H as [H1 H2]. split; [exact H1|]. split; [exact H2|]. split; [|split].
    - intros ->. reflexivity.
    - intros L. unfold f', crash_after. rewrite firstn_all2 by exact L. apply checkpoint_done.
    - intros Hm [L1 L2] [c' Hc]. unfold f', crash_after, p, save_the_checkpoint in *. cbn [fst] in *.
      rewrite app_length in L2. cbn [length] in L2. rewrite map_length in L2.
      rewrite firstn_app in Hc. cbn [length] in Hc. rewrite map_length in Hc.
      replace (k - S (length mid)) with 0 in Hc by lia. cbn [firstn] in Hc. rewrite app_nil_r in Hc.
      destruct k as [|k]; [lia|]. cbn [firstn] in Hc. cbn in Hc.
      change (fold_left (fun f op => op f) ?l ?g) with (run_ops l g) in Hc.
      revert Hc. apply (crash_inv (fun g => fo_ckp g = Some (Whole c') -> False)).
      + intros op g Hop Hg. apply in_map_iff in Hop as (x & <- & Hx). cbn. intros [= E]. exact (Hm x Hx c' E).
      + discriminate.
  Qed.

  (** ** New runs *)
  Lemma new_run_refused : forall new first mid ckp midc (f : folder) x,
    fo_out f = Some x ->
    new_run true false false new first mid ckp midc f = ([], Some FileExistsError).
  Proof. intros new first mid ckp midc f x H. unfold new_run, init_output_file. rewrite H. reflexivity. Qed.

  Lemma then_None : forall (p q : program U V C), snd p = None -> then_ p q = (fst p ++ fst q, snd q).
  Proof. intros p q H. unfold then_. now rewrite H. Qed.

  Lemma new_run_creates : forall clobber new first mid ckp midc (f : folder),
    clobber = true \/ fo_out f = None ->
    let p := new_run true clobber false new first mid ckp midc f in
    snd p = None /\ fo_out (finished p f) = Some (Whole first) /\ fo_old (finished p f) = fo_old f.
  Proof.
    intros clobber new first mid ckp midc f H. cbn zeta. unfold new_run.
    set (p := init_output_file true clobber new mid f).
    assert (Hp : snd p = None /\ fo_old (finished p f) = fo_old f).
    { unfold p, init_output_file. cbn [negb]. destruct (fo_out f) as [x|] eqn:E.
      - destruct H as [->|H]; [|discriminate]. split; [reflexivity|]. unfold finished. cbn [fst]. rewrite run_ops_app. cbn.
        apply (puts_out mid (put_out (Some Torn) (put_out None f))).
      - split; [reflexivity|]. unfold finished. cbn [fst]. rewrite run_ops_app. cbn.
        apply (puts_out mid (put_out (Some Torn) f)). }
    destruct Hp as [Hp1 Hp2]. rewrite then_None by exact Hp1. rewrite then_None by reflexivity. cbn [fst snd].
    set (q := match ckp with Some c => save_the_checkpoint c midc | None => ([], None) end).
    assert (Hq : snd q = None /\ forall g : folder, fo_out (run_ops (fst q) g) = fo_out g /\ fo_old (run_ops (fst q) g) = fo_old g).
    { unfold q. destruct ckp as [c|]; [|repeat split]. split; [reflexivity|]. intros g. unfold save_the_checkpoint. cbn [fst].
      rewrite run_ops_app. cbn. destruct (puts_ckp midc (put_ckp (Some Torn) g)) as [H1 H2]. split; [apply H2|apply H1]. }
    destruct Hq as [Hq1 Hq2]. split; [exact Hq1|]. unfold finished. cbn [fst]. rewrite run_ops_app.
    cbn [app]. change (run_ops (put_out (Some (Whole first)) :: fst q) ?g) with (run_ops (fst q) (put_out (Some (Whole first)) g)).
    destruct (Hq2 (put_out (Some (Whole first)) (run_ops (fst p) f))) as [-> ->]. split; [reflexivity|exact Hp2].
  Qed.
End FilesProofs.
