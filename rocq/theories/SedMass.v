(** Sediment: mass budget, limits, deposits, velocity and depth (C20-C25, C55). *)
From Coq Require Import ZArith List Bool Reals Lra Lia.
From Verif Require Import Base RLemmas Shared SharedSpec SharedProofs Params State Sed
  VecLemmas WaterSpec WeightProofs SedSpec SedProofs.
From Verif Require Import Water WalkProofs RunProofs.
Import ListNotations.
Local Open Scope R_scope.

(** ** Grid sums *)
Lemma cells_NoDup L W : NoDup (cells L W).
Proof.
  unfold cells. pose proof (zrange_NoDup L) as HL. induction HL as [|x l Hx Hl IH]; cbn; [constructor|].
  assert (H1 : NoDup (map (fun j => (x, j)) (zrange W))).
  { apply FinFun.Injective_map_NoDup; [|apply zrange_NoDup]. intros a b E. congruence. }
  revert H1. set (rest := flat_map _ l) in *. assert (Hr : forall a b, In (a, b) rest -> In a l).
  { intros a b H. apply in_flat_map in H as (a' & Ha & Hb). apply in_map_iff in Hb as (b' & E & _).
    injection E as -> ->. auto. }
  clearbody rest. induction (zrange W) as [|y w IHw]; intros H1; cbn; auto.
  inversion H1; subst. constructor; auto. rewrite in_app_iff. intros [H|H]; [contradiction|].
  apply Hr in H. contradiction.
Qed.

Lemma rsum_ext {T} (f g : T -> R) l : (forall x, In x l -> f x = g x) -> rsum (map f l) = rsum (map g l).
Proof. intros H. f_equal. apply map_ext_in. auto. Qed.
Lemma rsum_plus {T} (f g : T -> R) l : rsum (map (fun x => f x + g x) l) = rsum (map f l) + rsum (map g l).
Proof. induction l as [|x l IH]; cbn; [lra|]. rewrite IH. lra. Qed.
Lemma rsum_minus {T} (f g : T -> R) l : rsum (map (fun x => f x - g x) l) = rsum (map f l) - rsum (map g l).
Proof. induction l as [|x l IH]; cbn; [lra|]. rewrite IH. lra. Qed.
Lemma rsum_scal {T} (f : T -> R) c l : rsum (map (fun x => c * f x) l) = c * rsum (map f l).
Proof. induction l as [|x l IH]; cbn; [lra|]. rewrite IH. lra. Qed.
Lemma rsum_const0 {T} (l : list T) : rsum (map (fun _ => 0) l) = 0.
Proof. induction l as [|x l IH]; cbn; [lra|]. rewrite IH. lra. Qed.
Lemma rsum_swap {T U} (f : T -> U -> R) l m :
  rsum (map (fun x => rsum (map (fun y => f x y) m)) l)
  = rsum (map (fun y => rsum (map (fun x => f x y) l)) m).
Proof.
  induction l as [|x l IH]; cbn.
  - rewrite rsum_const0. lra.
  - rewrite IH. rewrite <- rsum_plus. reflexivity.
Qed.

Lemma gsum_ext L W f g : (forall i j, inb L W i j -> f i j = g i j) -> gsum L W f = gsum L W g.
Proof. intros H. apply rsum_ext. intros [i j] Hc. apply cells_In in Hc. apply H; auto. Qed.

Lemma rsum_single (l : list (Z * Z)) i j x : NoDup l ->
  rsum (map (fun c => if ((fst c =? i) && (snd c =? j))%Z then x else 0) l)
  = if existsb (fun c => ((fst c =? i) && (snd c =? j))%Z) l then x else 0.
Proof.
  induction 1 as [|[a b] l Hn Hl IH]; cbn [map rsum existsb fst snd]; [reflexivity|].
  change (rsum (?a :: ?b)) with (a + rsum b).
  rewrite IH. destruct ((a =? i) && (b =? j))%Z eqn:E; cbn [orb].
  - apply andb_prop in E as [E1 E2]. apply Z.eqb_eq in E1, E2. subst.
    destruct (existsb _ l) eqn:Ex; [|lra]. exfalso. apply existsb_exists in Ex as ([a b] & Hin & E).
    cbn in E. apply andb_prop in E as [E1 E2]. apply Z.eqb_eq in E1, E2. subst. contradiction.
  - lra.
Qed.

Lemma gsum_single L W i j x :
  gsum L W (fun a b => if ((a =? i) && (b =? j))%Z then x else 0) = if inbb L W i j then x else 0.
Proof.
  unfold gsum. rewrite (rsum_single (cells L W) i j x (cells_NoDup L W)).
  destruct (inbb L W i j) eqn:E.
  - apply inbb_spec in E. apply cells_In in E.
    replace (existsb _ _) with true; auto. symmetry. apply existsb_exists. exists (i, j). split; auto.
    cbn. rewrite !Z.eqb_refl. reflexivity.
  - destruct (existsb _ _) eqn:Ex; auto. apply existsb_exists in Ex as ([a b] & Hin & Ee).
    cbn in Ee. apply andb_prop in Ee as [E1 E2]. apply Z.eqb_eq in E1, E2. subst.
    apply cells_In in Hin. apply inbb_spec in Hin. congruence.
Qed.

Lemma gsum_plus L W f g : gsum L W (fun i j => f i j + g i j) = gsum L W f + gsum L W g.
Proof. apply (rsum_plus (fun c => f (fst c) (snd c)) (fun c => g (fst c) (snd c))). Qed.
Lemma gsum_minus L W f g : gsum L W (fun i j => f i j - g i j) = gsum L W f - gsum L W g.
Proof. apply (rsum_minus (fun c => f (fst c) (snd c)) (fun c => g (fst c) (snd c))). Qed.

Lemma gsum_gset L W f i j d : inb L W i j -> gsum L W (gset f i j (f i j + d)) = gsum L W f + d.
Proof.
  intros H. rewrite <- (gsum_ext L W (fun a b => f a b + if ((a =? i) && (b =? j))%Z then d else 0)).
  - rewrite gsum_plus, gsum_single. apply inbb_spec in H. rewrite H. reflexivity.
  - intros a b _. unfold gset. destruct ((a =? i) && (b =? j))%Z eqn:E; [|lra].
    apply andb_prop in E as [E1 E2]. apply Z.eqb_eq in E1, E2. subst. reflexivity.
Qed.

(** ** Mass budget, exact arithmetic, any state (C20) *)
Section Mass.
  Notation XA := (RA (fun x => x)).
  Context {S : Type} {G : Rng R S} (P : params R) (g : grain).
  Notation L := (p_L P).
  Notation W := (p_W P).

  Lemma sed_step_mass (st : state R S) b V i j s px py b' V' s' :
    sed_step (A:=XA) P g st b V i j s = Ok (px, py, b', V', s') ->
    exists a c dV, inb L W a c /\ V' = V - dV /\
      b_eta b' = gset (b_eta b) a c (b_eta b a c + dV / (p_dx P * p_dx P)).
  Proof.
    unfold sed_step. intros H.
    apply rbind_Ok in H as ([k s1] & _ & H). destruct (get_steps k) as [[[dist istep] jstep] ast].
    apply rbind_Ok in H as ([i0 j0] & _ & H). apply rbind_Ok in H as ([a c] & Hc & H).
    destruct (zero_divisor _ _ _ _ _ _); [discriminate|]. unfold deposit_or_erode in H.
    assert (Hin : inb L W a c).
    { unfold cell_ix in Hc. destruct (inbb L W _ _) eqn:E; [|discriminate]. apply inbb_spec in E.
      injection Hc as <- <-. exact E. }
    destruct g; injection H as <- <- <- <- <-; do 3 eexists; (split; [exact Hin|]); (split; [reflexivity|]).
    - unfold update_fields, partition_sediment. cbn [b_eta]. destruct (fltb _ _); reflexivity.
    - reflexivity.
  Qed.

  Lemma route_one_mass (st : state R S) n : forall b V i j s b' V' s', 0 < p_dx P ->
    route_one_parcel (A:=XA) P g st n b V i j s = Ok (b', V', s') ->
    V = V' + p_dx P * p_dx P * (gsum L W (b_eta b') - gsum L W (b_eta b)).
  Proof.
    induction n as [|n IH]; intros b V i j s b' V' s' Hdx H; cbn [route_one_parcel] in H; [discriminate|].
    apply rbind_Ok in H as ([[[[px py] b1] V1] s1] & Hs & H).
    apply rbind_Ok in H as ([a c] & Hc & H).
    apply sed_step_mass in Hs as (x & y & dV & Hin & -> & E).
    assert (Hm : V = V - dV + p_dx P * p_dx P * (gsum L W (b_eta b1) - gsum L W (b_eta b))).
    { rewrite E, gsum_gset by auto. field. lra. }
    destruct (_ || _)%bool.
    - injection H as <- <- <-. exact Hm.
    - apply IH in H; auto. lra.
  Qed.

  Lemma route_parcels_mass (st : state R S) starts : forall b s b' Vs s', 0 < p_dx P ->
    route_parcels (A:=XA) P g st starts b s = Ok (b', Vs, s') ->
    List.length Vs = List.length starts /\
    p_dx P * p_dx P * (gsum L W (b_eta b') - gsum L W (b_eta b))
      = INR (List.length starts) * p_Vp_sed P - rsum Vs.
  Proof.
    induction starts as [|c cs IH]; intros b s b' Vs s' Hdx H; cbn [route_parcels] in H.
    - injection H as <- <- <-. cbn. split; auto. lra.
    - apply rbind_Ok in H as ([i j] & _ & H). destruct (no_flux_scale _ _); [discriminate|].
      apply rbind_Ok in H as ([[b2 V2] s2] & H1 & H).
      apply rbind_Ok in H as ([[b3 V3] s3] & H2 & H). injection H as <- <- <-.
      apply route_one_mass in H1; auto. apply IH in H2 as [H2 H3]; auto. split; [cbn; congruence|].
      cbn [List.length]. rewrite S_INR. change (rsum (V2 :: V3)) with (V2 + rsum V3).
      match type of H1 with context [b_eta ?x] => replace (b_eta x) with (b_eta b2) in H1 at 1 by reflexivity end.
      assert (E : b_eta (match g with Sand => set_qs_bed b (add_at (A:=XA) (b_qs b) i j (flux_part (A:=XA) P (p_Vp_sed P))) | Mud => b end) = b_eta b) by (destruct g; reflexivity).
      rewrite E in H1. lra.
  Qed.

  Lemma start_loop_len inlet w n : forall s l s',
    start_loop (A:=XA) inlet w n s = Ok (l, s') -> List.length l = n.
  Proof.
    induction n as [|n IH]; intros s l s' H; cbn [start_loop] in H.
    - injection H as <- <-. reflexivity.
    - destruct (random_pick _ _) as [[k s1]|]; [|discriminate].
      destruct (nth_error inlet k); [|discriminate].
      destruct (start_loop inlet w n s1) as [[l1 s2]|] eqn:E; [|discriminate].
      injection H as <- <-. cbn. f_equal. eauto.
  Qed.

  Lemma route_all_mass (st st' : state R S) Vs : 0 < p_dx P ->
    route_all_parcels_res (A:=XA) P g st = Ok (st', Vs) ->
    Z.of_nat (List.length Vs) = Z.max 0 (num_starts (A:=XA) P g) /\
    p_dx P * p_dx P * (gsum L W (s_eta st') - gsum L W (s_eta st))
      = INR (List.length Vs) * p_Vp_sed P - rsum Vs.
  Proof.
    intros Hdx H. unfold route_all_parcels_res in H.
    apply rbind_Ok in H as ([starts s] & H0 & H). apply rbind_Ok in H as ([[b Vs'] s'] & H1 & H).
    injection H as <- <-. apply route_parcels_mass in H1 as [E H1]; auto.
    unfold get_start_indices in H0. apply start_loop_len in H0. rewrite E, H0. split; [lia|].
    rewrite H0 in H1. rewrite <- H1. unfold put_bed. cbn [s_eta set_rng set_Vp_dep_mud set_Vp_dep_sand set_eta].
    rewrite gmemo_id. reflexivity.
  Qed.
End Mass.
