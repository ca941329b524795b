(** Property C72 (left and right). *)
From Coq Require Import ZArith List Bool Reals Lra Lia Floats.SpecFloat.
From Flocq Require Import Core.
From Verif Require Import Base RLemmas Shared SharedSpec SharedProofs Params State Water WaterSpec WeightProofs RunProofs
  Sed SedSpec Iter IterSpec IterProofs Inputs Init InitSpec InitProofs
  MirrorSpec MirrorProofs MirrorWalk MirrorRun MirrorFlow MirrorSed MirrorIter Examples Props_Sed Props_Iter Props_Init.
Import ListNotations.
Local Open Scope Z_scope.

(** Every state has a mirror image. *)
Theorem C72_mirror_images_exist :
  forall (S S' : Type) (P : params R) (st : state R S) (s : S'), mirror_state P st (mirror_of P s st).
Proof.
  intros S S' P st s. constructor; try reflexivity; intros i j Hi; cbn -[flip]; rewrite flip_flip; reflexivity.
Qed.
Print Assumptions C72_mirror_images_exist.

(** ** The odds of each choice *)
(** Water: where the model can compute its weights, the mirror image can, and
    a direction weighs as much as its mirror image. *)
Theorem C72_water_weights_mirrored :
  forall (S S' : Type) (P : params R) (st : state R S) (st' : state R S') w,
    mirror_state P st st' ->
    get_water_weight_array (A:=RX) P (s_depth st) (s_stage st) (s_mod_water_weight st) (s_cell_type st) (s_qx st) (s_qy st) = Ok w ->
    exists w', get_water_weight_array (A:=RX) (mirror_params P) (s_depth st') (s_stage st') (s_mod_water_weight st')
        (s_cell_type st') (s_qx st') (s_qy st') = Ok w' /\
      forall i j k, inb (p_L P) (p_W P) i j -> (k < 9)%nat -> w' i (flip (p_W P) j) (flip_dir k) = w i j k.
Proof. intros S S' P st st' w. exact (array_mir P st st' w). Qed.
Print Assumptions C72_water_weights_mirrored.

(** Sediment, on the bed of the moment. *)
Theorem C72_sediment_weights_mirrored :
  forall (S : Type) (P : params R) (g : grain) (st : state R S) (st' : state R (list R)) i j w,
    mirror_state P st st' -> inb (p_L P) (p_W P) i j ->
    sed_weights (A:=RX) P g st (bed_of (A:=RX) P st) i j = Ok w ->
    exists w', sed_weights (A:=RX) (mirror_params P) g st' (bed_of (A:=RX) (mirror_params P) st') i (flip (p_W P) j) = Ok w' /\
      forall k, (k < 9)%nat -> w' (flip_dir k) = w k.
Proof.
  intros S P g st st' i j w Hm Hi E.
  pose proof (weights_mir P g st st' Hm _ _ i j Hi (bed_of_mir P st st' ltac:(destruct Hi; lia) ltac:(destruct Hi; lia) Hm)) as Q. change RX with XA in *. rewrite E in Q.
  destruct (sed_weights (mirror_params P) g st' _ i (flip (p_W P) j)) as [w'|e]; [|contradiction].
  exists w'. split; [reflexivity|]. exact Q.
Qed.
Print Assumptions C72_sediment_weights_mirrored.

(** ** Runs *)
(** Whatever n updates do and write, n updates of the mirror image do and
    write the mirror image of it with some variates, which a generator may
    return and of which no more are used. *)
Theorem C72_run_mirrored :
  forall (S : Type) (G : Rng R S) (P : params R) (n : nat) (st : state R S) (st' : state R (list R)) st1 o,
    uniform_range G -> (forall s, (0 < fst (draw s))%R) ->
    model_ready P st -> corners_land P st -> mirror_state P st st' ->
    updates (A:=RX) P n st = Ok (st1, o) ->
    exists us st1', variates us /\ mirror_state P st1 st1' /\ forall rest, exists o',
      updates (A:=RX) (G:=tape) (mirror_params P) n (set_rng (us ++ rest) st') = Ok (set_rng rest st1', o') /\
      Forall2 (mirror_output P) o o'.
Proof. intros S G P n st st' st1 o HG Hu Hr Hc Hm. exact (updates_mir P HG Hu n st st' st1 o Hr Hm Hc). Qed.
Print Assumptions C72_run_mirrored.

Example C72_hypotheses :
  model_ready (exP (A:=RX)) (exst (A:=RX) tt) /\ corners_land (exP (A:=RX)) (exst (A:=RX) tt) /\
  mirror_state (exP (A:=RX)) (exst (A:=RX) tt) (mirror_of (exP (A:=RX)) (@nil R) (exst (A:=RX) tt)) /\
  exists st1 o, updates (A:=RX) (G:=half_rng) (exP (A:=RX)) 3 (exst (A:=RX) tt) = Ok (st1, o).
Proof.
  split; [exact ex_model_ready|]. split; [split; reflexivity|]. split; [apply C72_mirror_images_exist|]. apply ex_updates.
Qed.

(** The same from the construction of a model on. *)
Theorem C72_new_model_mirrored :
  forall (S N : Type) (G : Rng R S) (GN : NpRng N) (c : inputs R) (nb : S) (np np' : N) (m : model S) o0 (n : nat) st1 o,
    runnable c -> uniform_range G -> (forall s, (0 < fst (draw s))%R) ->
    new_model (A:=RX) c nb np = Ok (m, o0, np') ->
    updates (A:=RX) (m_P m) n (m_st m) = Ok (st1, o) ->
    let P := m_P m in
    exists us st1', variates us /\ mirror_state P st1 st1' /\ forall rest, exists o',
      updates (A:=RX) (G:=tape) (mirror_params P) n (mirror_of P (us ++ rest) (m_st m)) = Ok (set_rng rest st1', o') /\
      Forall2 (mirror_output P) o o'.
Proof.
  intros S N G GN c nb np np' m o0 n st1 o HR HG Hu E Eu. cbn zeta. unfold new_model in E.
  apply rbind_Ok in E as ([m0 np0] & Ec & E).
  destruct (write_output (m_P m0) (m_st m0)) as [sw ow] eqn:Ew. injection E as <- <- <-. cbn [m_P m_st] in *.
  destruct (runnable_ready (G:=G) c nb np HR) as (mx & nx & Ex & Hready). change RX with XA in *. rewrite Ec in Ex. injection Ex as <- <-.
  assert (Hr : model_ready (m_P m0) sw) by (eapply write_ready; eauto).
  pose proof (construct_outcome (G:=G) c nb np) as H. change (RA (fun x => x)) with XA in H. rewrite Ec in H.
  destruct H as (_ & _ & _ & z & _ & _ & _ & _ & HD & HI & HL & _).
  assert (HW : (5 <= p_W (m_P m0))%Z).
  { destruct HR. destruct (de_cols _ _ HD) as [D2 _]. eapply rounded_ge; [exact D2|lra]. }
  destruct (HL HW) as [first Hla]. destruct (de_L0 _ _ HD) as (k & _ & Hk).
  destruct (de_rows _ _ HD) as [_ HLL].
  assert (Hc : corners_land (m_P m0) sw).
  { assert (Kct : s_cell_type sw = s_cell_type (m_st m0)).
    { apply (FrameProofs.same_fields _ _ (FrameProofs.write_output_same _ _ _ _ Ew)). }
    pose proof (la_columns _ _ _ Hla) as Hcol.
    split; rewrite Kct, (la_strip _ _ _ Hla) by (unfold inb; lia).
    - destruct (Z.leb_spec first 0); [lia|]. reflexivity.
    - destruct (Z.ltb_spec (p_W (m_P m0) - 1) (first + p_N0 (m_P m0))); [lia|]. rewrite andb_false_r. reflexivity. }
  destruct (updates_mir (m_P m0) HG Hu n sw (mirror_of (m_P m0) [] sw) st1 o Hr (C72_mirror_images_exist _ _ _ _ _) Hc Eu)
    as (us & st1' & Hus & Hm1 & K). exists us, st1'. split; auto.
Qed.
Print Assumptions C72_new_model_mirrored.

Example C72_new_model_hypotheses : runnable (exI (A:=RX)) /\
  exists m o0 np', new_model (A:=RX) (G:=half_rng) (GN:=count_rng) (exI (A:=RX)) tt 0 = Ok (m, o0, np') /\
    exists st1 o, updates (A:=RX) (G:=half_rng) (m_P m) 2 (m_st m) = Ok (st1, o).
Proof.
  split; [exact exI_runnable|].
  destruct (runnable_ready (G:=half_rng) (GN:=count_rng) (exI (A:=RX)) tt 0 exI_runnable) as (m & np' & E & Hr).
  unfold new_model. change RX with XA in *. rewrite E. cbn [rbind].
  destruct (write_output (m_P m) (m_st m)) as [sw ow] eqn:Ew.
  exists (mkModel (m_in m) (m_P m) sw false), ow, np'. split; [reflexivity|]. cbn [m_P m_st].
  destruct (updates_total (G:=half_rng) (m_P m) 2 sw) as (st1 & o & Eu & _);
    [eapply write_ready; eauto|exact half_rng_range|exact half_rng_pos|]. eauto.
Qed.

(** ** What is not the same on both sides *)
(** The basin of a new model is never its own mirror image: the boundary
    follows a circle about a column left of the middle. *)
Theorem C72_basin_off_centre_refuted :
  forall (S N : Type) (G : Rng R S) (GN : NpRng N) (c : inputs R) (nb : S) (np np' : N) (m : model S),
    construct (A:=RX) c nb np = Ok (m, np') -> let P := m_P m in 6 <= p_W P ->
    (exists i j, inb (p_L P) (p_W P) i j /\ s_cell_type (m_st m) i j = OCEAN) ->
    ~ mirror_image (p_L P) (p_W P) (s_cell_type (m_st m)) (s_cell_type (m_st m)).
Proof.
  intros S N G GN c nb np np' m E P HW (a & b & Hab & Ho) Hsym. pose proof (construct_outcome c nb np) as H.
  change RX with (RA (fun x => x)) in E. rewrite E in H.
  destruct H as (_ & _ & _ & z & _ & _ & _ & _ & _ & _ & H & _). fold P in H. destruct (H ltac:(lia)) as [first Hla].
  exact (off_centre P (m_st m) first Hla HW a b Hab Ho Hsym).
Qed.
Print Assumptions C72_basin_off_centre_refuted.

Example C72_basin_hypotheses : exists m np', construct (A:=RX) (G:=half_rng) (exI (A:=RX)) tt 0 = Ok (m, np') /\
  6 <= p_W (m_P m) /\ exists i j, inb (p_L (m_P m)) (p_W (m_P m)) i j /\ s_cell_type (m_st m) i j = OCEAN.
Proof.
  destruct C42_hypotheses as (m & np' & E & HD). exists m, np'. split; auto.
  assert (H12 : 12 <= p_W (m_P m)) by (eapply rounded_ge; [apply (de_cols _ _ HD)|]; cbn; lra).
  assert (H10 : 10 <= p_L (m_P m)) by (eapply rounded_ge; [apply (de_rows _ _ HD)|]; cbn; lra).
  split; [lia|]. apply (proj2 (C43_ocean_exists_iff _ _ _ _ _ _ _ _ _ E ltac:(lia))).
  assert (H3 : p_L0 (m_P m) <= 3).
  { destruct (de_L0 _ _ HD) as (n & [Hn _] & ->). apply Rabs_le_inv in Hn. cbn in Hn.
    assert (n < 4)%Z by (apply lt_IZR; lra). lia. }
  rewrite Z.max_r by lia. apply Rmin_glb_lt.
  - apply IZR_lt. lia.
  - apply IZR_le in H12. change (IZR (3 - 3)) with 0%R. lra.
Qed.

(** The inlet is in the middle only if width and inlet are both even, or the
    width is odd and the inlet one more than a multiple of four. *)
Theorem C72_inlet_centred_iff :
  forall (S N : Type) (G : Rng R S) (GN : NpRng N) (c : inputs R) (nb : S) (np np' : N) (m : model S),
    construct (A:=RX) c nb np = Ok (m, np') -> let P := m_P m in 6 <= p_W P ->
    ((forall j, In j (p_inlet P) <-> In (flip (p_W P) j) (p_inlet P)) <->
     (Z.even (p_W P) = true /\ Z.even (p_N0 P) = true) \/ (Z.even (p_W P) = false /\ p_N0 P mod 4 = 1)).
Proof.
  intros S N G GN c nb np np' m E P HW. pose proof (construct_outcome c nb np) as H.
  change RX with (RA (fun x => x)) in E. rewrite E in H.
  destruct H as (_ & _ & _ & z & _ & _ & _ & _ & _ & _ & H & _). fold P in H. destruct (H ltac:(lia)) as [first Hla].
  exact (inlet_centred P (m_st m) first Hla HW).
Qed.
Print Assumptions C72_inlet_centred_iff.

(** In binary64 the example has 14 columns with the inlet in columns 5 to 7
    and, in the first row of the basin, ocean in columns 5 to 7 ([C43_binary64]):
    both half a column to the left of the middle, 6.5. *)
Example C72_binary64_layout :
  match construct (A:=F64) (G:=lcg) exI 7 0 with
  | Ok (m, _) => (p_W (m_P m), p_inlet (m_P m), map (flip (p_W (m_P m))) (p_inlet (m_P m)))
  | Err _ => (0, [], [])
  end = (14, [5; 6; 7], [8; 7; 6]).
Proof. vm_compute. reflexivity. Qed.

(** Rounding is not the same on both sides either: the weights are added from
    left to right, and the mirror image of the weights is not always the
    weight of the mirror image. *)
Definition tenths (l : list Z) : vec sfloat := fun k => flit (A:=F64) (nth k l 0%Z) 10.
Definition uneven (k : nat) : sfloat := tenths [1; 7; 3; 41; 0; 5; 16; 7; 28] k.
Theorem C72_binary64_weights_refuted :
  exists (v depth mods : vec sfloat) (ct : vec Z) (dry gamma theta : sfloat) w w',
    (forall k, depth (flip_dir k) = depth k /\ mods (flip_dir k) = mods k /\ ct (flip_dir k) = ct k) /\
    get_weight_at_cell_water (A:=F64) false v v depth mods ct dry gamma theta = Ok w /\
    get_weight_at_cell_water (A:=F64) false (fun k => v (flip_dir k)) (fun k => v (flip_dir k)) depth mods ct dry gamma theta = Ok w' /\
    forall k, (k < 9)%nat -> k <> 4%nat -> SFeqb (w' (flip_dir k)) (w k) = false.
Proof.
  set (one := fun _ : nat => fz (Arith:=F64) 1).
  pose (f := fun v => get_weight_at_cell_water (A:=F64) false v v one one (fun _ => 0) (flit (A:=F64) 1 10) (flit (A:=F64) 1 20) (fz (Arith:=F64) 1)).
  assert (H : match f uneven, f (fun k => uneven (flip_dir k)) with
    | Ok w, Ok w' => forallb (fun k => Nat.eqb k 4 || negb (SFeqb (w' (flip_dir k)) (w k))) (seq 0 9)
    | _, _ => false end = true) by (vm_compute; reflexivity).
  exists uneven, one, one, (fun _ => 0), (flit (A:=F64) 1 10), (flit (A:=F64) 1 20), (fz (Arith:=F64) 1).
  change (get_weight_at_cell_water false uneven uneven one one (fun _ => 0) (flit (A:=F64) 1 10) (flit (A:=F64) 1 20) (fz (Arith:=F64) 1))
    with (f uneven).
  change (get_weight_at_cell_water false (fun k => uneven (flip_dir k)) (fun k => uneven (flip_dir k)) one one (fun _ => 0)
    (flit (A:=F64) 1 10) (flit (A:=F64) 1 20) (fz (Arith:=F64) 1)) with (f (fun k => uneven (flip_dir k))).
  destruct (f uneven) as [w|]; [|discriminate]. destruct (f (fun k => uneven (flip_dir k))) as [w'|]; [|discriminate].
  exists w, w'. split; [auto|]. split; [reflexivity|]. split; [reflexivity|].
  intros k Hk H4. rewrite forallb_forall in H. specialize (H k (proj2 (in_seq 9 0 k) (conj (Nat.le_0_l k) Hk))).
  apply orb_prop in H as [H|H]; [apply Nat.eqb_eq in H; contradiction|]. apply negb_true_iff in H. exact H.
Qed.
Print Assumptions C72_binary64_weights_refuted.
