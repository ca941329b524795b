(** Proofs about the header of the output file. *)
From Coq Require Import ZArith List Bool String Reals Lra Lia.
From Flocq Require Import Core.
From Verif Require Import Base RLemmas Dict Shared Params State WaterSpec IterSpec Inputs Init InitSpec InitProofs
  Switches SwitchSpec Header HeaderSpec.
Import ListNotations.
Local Open Scope string_scope.

Lemma dget_app {V} k (d e : dict V) :
  dget k (d ++ e)%list = match dget k d with Some v => Some v | None => dget k e end.
Proof. induction d as [|[k' v] d IH]; cbn; [reflexivity|]. destruct (String.eqb k k'); auto. Qed.

Lemma saves_meta x on md ts : selects x on -> metas_on on md -> w_meta (open_writer x md ts) = true.
Proof.
  intros HS [->|[g Hg]]; cbn [open_writer w_meta]; [reflexivity|].
  apply orb_true_iff. right. apply existsb_exists. exists g. split.
  - destruct g; cbn; auto 12.
  - rewrite (se_grd_on _ _ HS). exact Hg.
Qed.
Lemma saves_nothing x on md ts : selects x on -> ~ metas_on on md ->
  (w_meta (open_writer x md ts) || w_any (open_writer x md ts))%bool = false.
Proof.
  intros HS HN. cbn [open_writer w_meta w_any].
  assert (Hm : md = false) by (destruct md; auto; exfalso; apply HN; left; reflexivity).
  assert (Ha : existsb (grd_on x) all_grds = false).
  { destruct (existsb _ _) eqn:E; auto. apply existsb_exists in E as (g & _ & Hg). exfalso. apply HN. right. exists g.
    rewrite <- (se_grd_on _ _ HS). exact Hg. }
  rewrite Ha, Hm. reflexivity.
Qed.

Section HeaderProofs.
  Context {F : Type} {A : Arith F} {S : Type} (store : F -> F).

  Lemma grid_vars_get legacy l name : dget name (grid_vars (F:=F) legacy l) =
    match dget name l with
    | Some _ => Some (mkVar (grid_units name) [time_dim legacy; row_dim legacy; col_dim legacy] HSeries)
    | None => None end.
  Proof.
    induction l as [|[k a] l IH]; cbn; [reflexivity|]. destruct (String.eqb name k) eqn:E; auto.
    apply String.eqb_eq in E. subst. reflexivity.
  Qed.

  Lemma dget_in {V} (d : dict V) k v : dget k d = Some v -> In (k, v) d.
  Proof.
    induction d as [|[k' v'] d IH]; cbn; [discriminate|]. destruct (String.eqb k k') eqn:E; auto.
    apply String.eqb_eq in E. subst. injection 1 as ->. auto.
  Qed.
  Lemma in_dget {V} (d : dict V) k v : In (k, v) d -> exists u, dget k d = Some u.
  Proof.
    induction d as [|[k' v'] d IH]; cbn; [tauto|]. intros [E|E].
    - injection E as -> ->. rewrite String.eqb_refl. eauto.
    - destruct (String.eqb k k'); eauto.
  Qed.

  (** No grid is named like a coordinate or a piece of metadata. *)
  Lemma grid_names x on k : selects x on -> forall a, In (k, a) (var_list x) ->
    In k ["eta"; "stage"; "depth"; "discharge"; "velocity"; "sedflux"; "sandfrac"; "discharge_x"; "discharge_y";
          "velocity_x"; "velocity_y"].
  Proof.
    intros HS a H. apply (se_vars _ _ HS) in H as (g & _ & H).
    destruct g; cbn in H; repeat (destruct H as [H|H]; [injection H as <- _; cbn; auto 20|]); destruct H.
  Qed.
  Lemma not_a_grid x on k : selects x on ->
    ~ In k ["eta"; "stage"; "depth"; "discharge"; "velocity"; "sedflux"; "sandfrac"; "discharge_x"; "discharge_y";
          "velocity_x"; "velocity_y"] -> dget k (var_list x) = None.
  Proof.
    intros HS HN. destruct (dget k (var_list x)) eqn:E; auto. exfalso. apply HN.
    apply dget_in in E. exact (grid_names x on k HS _ E).
  Qed.

  Context (x : selection) (on : switch -> bool) (md ts legacy : bool) (HS : selects x on).
  Context (P : params F) (st : state F S).

  (** The file made. *)
  Definition made : header F :=
    mkHeader [(row_dim legacy, Some (p_L P)); (col_dim legacy, Some (p_W P)); (time_dim legacy, None)]
      (coordinates store legacy P ++ grid_vars legacy (var_list x) ++ meta_vars store legacy P st)%list.
  Lemma file_made : metas_on on md -> init_output_file store legacy (open_writer x md ts) P st = Some made.
  Proof.
    intros HM. unfold init_output_file. rewrite (saves_meta x on md ts HS HM). reflexivity.
  Qed.
  Lemma made_coordinate k v : dget k (coordinates store legacy P) = Some v -> dget k (h_vars made) = Some v.
  Proof. intros E. cbn [made h_vars]. rewrite dget_app, E. reflexivity. Qed.
  Lemma made_meta k v : dget k (coordinates store legacy P) = None ->
    ~ In k ["eta"; "stage"; "depth"; "discharge"; "velocity"; "sedflux"; "sandfrac"; "discharge_x"; "discharge_y";
          "velocity_x"; "velocity_y"] ->
    dget k (meta_vars store legacy P st) = v -> dget k (h_vars made) = v.
  Proof.
    intros E HN Em. cbn [made h_vars]. rewrite !dget_app, E, grid_vars_get, (not_a_grid x on k HS HN). exact Em.
  Qed.
  Lemma made_grid k a : In (k, a) (var_list x) -> dget k (h_vars made)
    = Some (mkVar (grid_units k) [time_dim legacy; row_dim legacy; col_dim legacy] HSeries).
  Proof.
    intros H. cbn [made h_vars]. pose proof (grid_names x on k HS a H) as HG.
    assert (E : dget k (coordinates store legacy P) = None).
    { unfold coordinates. cbn in HG. destruct legacy;
      repeat (destruct HG as [<-|HG]; [reflexivity|]); destruct HG. }
    destruct (in_dget _ _ _ H) as [u Eu]. rewrite !dget_app, E, grid_vars_get, Eu. reflexivity.
  Qed.
End HeaderProofs.

(** Cells of a row between two columns. *)
Lemma filter_range (f n W : Z) (p : Z -> bool) : (0 <= f)%Z -> (0 <= n)%Z -> (f + n <= W)%Z ->
  (forall j, (0 <= j < W)%Z -> p j = ((f <=? j) && (j <? f + n))%Z%bool) ->
  List.length (filter p (zrange W)) = Z.to_nat n.
Proof.
  intros Hf Hn HW Hp.
  assert (Hc : forall k : nat, (Z.of_nat k <= W)%Z ->
     Z.of_nat (List.length (filter p (map Z.of_nat (seq 0 k)))) = (Z.max 0 (Z.min n (Z.of_nat k - f)))%Z).
  { induction k as [|k IH]; [cbn; lia|]. intros Hk.
    rewrite seq_S, map_app, filter_app, app_length, Nat2Z.inj_add, IH by lia. cbn [map filter Nat.add].
    rewrite Hp by lia. destruct (f <=? Z.of_nat k)%Z eqn:E1, (Z.of_nat k <? f + n)%Z eqn:E2; cbn [andb List.length]; lia. }
  specialize (Hc (Z.to_nat W)). unfold zrange. rewrite Z2Nat.id in Hc by lia. specialize (Hc (Z.le_refl _)). lia.
Qed.
