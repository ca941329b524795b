(** Property C70: the header of the output file. *)
From Coq Require Import ZArith List Bool String Reals Lra Lia.
From Flocq Require Import Core.
From Verif Require Import Base RLemmas Dict Shared Params State WaterSpec Iter IterSpec Examples Inputs Init InitSpec
  InitProofs Switches SwitchSpec SwitchProofs Records RecordsSpec Header HeaderSpec HeaderProofs Props_Init.
Import ListNotations.
Local Open Scope string_scope.

(** ** C70 *)
(** A file is made exactly when something is to be saved. *)
Theorem C70_file_when_something_saved :
  forall (F : Type) (A : Arith F) (S : Type) (store : F -> F) x on md ts legacy (P : params F) (st : state F S),
    selects x on ->
    (init_output_file store legacy (open_writer x md ts) P st = None <-> ~ metas_on on md).
Proof.
  intros F A S store x on md ts legacy P st HS. split.
  - intros E HM. rewrite (file_made store x on md ts legacy HS P st HM) in E. discriminate.
  - intros HN. unfold init_output_file. rewrite (saves_nothing x on md ts HS HN). reflexivity.
Qed.
Print Assumptions C70_file_when_something_saved.

(** Coordinates: row i of the domain is at x = i dx and column j at y = j dx,
    in metres, the rows and columns together as long and wide as configured
    up to half a cell, and every grid is laid out by time, x and y.  [store]
    is the rounding to four-byte floats. *)
Theorem C70_coordinates :
  forall (S N : Type) (G : Rng R S) (GN : NpRng N) (store : R -> R) x on md ts (c : inputs R) (nb : S) (np np' : N) m,
    selects x on -> metas_on on md -> construct (A:=RX) c nb np = Ok (m, np') ->
    exists h L W vx vy, init_output_file (A:=RX) store false (open_writer x md ts) (m_P m) (m_st m) = Some h /\
      h_dims h = [("x", Some L); ("y", Some W); ("time", None)] /\
      (Rabs (IZR L * i_dx c - i_Length c) <= i_dx c / 2)%R /\ (Rabs (IZR W * i_dx c - i_Width c) <= i_dx c / 2)%R /\
      has h "x" "meter" ["x"] (HVec vx) /\ (forall i, vx i = store (IZR i * i_dx c)%R) /\
      has h "y" "meter" ["y"] (HVec vy) /\ (forall j, vy j = store (IZR j * i_dx c)%R) /\
      has h "time" "second" ["time"] HSeries /\
      (forall g name a, on (Grd g) = true -> In (name, a) (grd_outputs g) ->
         exists u, has h name u ["time"; "x"; "y"] HSeries).
Proof.
  intros S N G GN store x on md ts c nb np np' m HS HM E. pose proof (construct_outcome c nb np) as H.
  change RX with (RA (fun x => x)) in *. rewrite E in H.
  destruct H as (HA & _ & _ & z & _ & _ & _ & _ & HD & _).
  assert (Hdx : p_dx (m_P m) = i_dx c) by apply (de_copied _ _ HD).
  assert (Hspan : forall len n, rounded (len / i_dx c) n -> (Rabs (IZR n * i_dx c - len) <= i_dx c / 2)%R).
  { intros len n [Hr _]. pose proof (proj1 (ac_dx _ HA)) as Hp.
    replace (IZR n * i_dx c - len)%R with ((IZR n - len / i_dx c) * i_dx c)%R by (field; lra).
    rewrite Rabs_mult, (Rabs_pos_eq (i_dx c)) by lra. nra. }
  exists (made (A:=RA (fun x => x)) store x false (m_P m) (m_st m)), (p_L (m_P m)), (p_W (m_P m)).
  do 2 eexists. split; [exact (file_made store x on md ts false HS (m_P m) (m_st m) HM)|].
  split; [reflexivity|]. split; [apply Hspan, (de_rows _ _ HD)|]. split; [apply Hspan, (de_cols _ _ HD)|].
  split; [apply made_coordinate; reflexivity|]. split; [intros i; rewrite Hdx; reflexivity|].
  split; [apply made_coordinate; reflexivity|]. split; [intros i; rewrite Hdx; reflexivity|].
  split; [apply made_coordinate; reflexivity|].
  intros g name a Hg Hi. eexists.
  apply (made_grid (A:=RA (fun x => x)) store x on false HS (m_P m) (m_st m) name a). apply (se_vars _ _ HS). eauto.
Qed.
Print Assumptions C70_coordinates.

(** The fixed metadata describe the domain: every row of the inlet strip,
    which is L0 rows deep, has N0 channel cells and land elsewhere, column
    CTR among the former, and no row below has either; dx and h0 are as
    configured; hb is the initial depth of all cells past the strip; the cell
    types are those of the model. *)
Theorem C70_metadata_describe_the_domain :
  forall (S N : Type) (G : Rng R S) (GN : NpRng N) (store : R -> R) x on md ts legacy (c : inputs R) (nb : S) (np np' : N) m,
    selects x on -> metas_on on md -> construct (A:=RX) c nb np = Ok (m, np') -> (5 <= p_W (m_P m))%Z ->
    exists h L0 N0 CTR hb ct,
      init_output_file (A:=RX) store legacy (open_writer x md ts) (m_P m) (m_st m) = Some h /\
      has h "meta/L0" "cells" [] (HInt L0) /\ has h "meta/N0" "cells" [] (HInt N0) /\
      has h "meta/CTR" "cells" [] (HInt CTR) /\
      has h "meta/dx" "meters" [] (HNum (store (i_dx c))) /\ has h "meta/h0" "meters" [] (HNum (store (i_h0 c))) /\
      has h "meta/hb" "meters" [] (HNum (store hb)) /\
      has h "meta/cell_type" "type" [row_dim legacy; col_dim legacy] (HInts ct) /\
      ct = s_cell_type (m_st m) /\
      (forall i, (0 <= i < L0)%Z -> (i < p_L (m_P m))%Z ->
         cells_in_row ct (p_W (m_P m)) i CHANNEL = Z.to_nat N0 /\
         cells_in_row ct (p_W (m_P m)) i LAND = Z.to_nat (p_W (m_P m) - N0) /\ ct i CTR = CHANNEL) /\
      (forall i j, inb (p_L (m_P m)) (p_W (m_P m)) i j -> (L0 <= i)%Z ->
         ct i j <> CHANNEL /\ ct i j <> LAND /\ s_depth (m_st m) i j = hb).
Proof.
  intros S N G GN store x on md ts legacy c nb np np' m HS HM E HW. pose proof (construct_outcome c nb np) as H.
  change RX with (RA (fun x => x)) in *. rewrite E in H.
  destruct H as (HA & _ & _ & z & _ & _ & _ & _ & HD & HI & HL & _). destruct (HL HW) as [first La]. clear HL.
  pose proof (de_copied _ _ HD) as (Hdx & Hh0 & _).
  exists (made (A:=RA (fun x => x)) store x legacy (m_P m) (m_st m)), (p_L0 (m_P m)), (p_N0 (m_P m)), (p_CTR (m_P m)),
    (p_hb (m_P m)), (s_cell_type (m_st m)).
  split; [exact (file_made store x on md ts legacy HS (m_P m) (m_st m) HM)|].
  rewrite <- Hdx, <- Hh0.
  do 7 (split; [eapply (made_meta (A:=RA (fun x => x)) store x on legacy HS (m_P m) (m_st m));
    [destruct legacy; reflexivity|cbn; intuition discriminate|destruct legacy; reflexivity]|]).
  split; [reflexivity|].
  pose proof (la_columns _ _ _ La) as (C1 & C2 & C3).
  split.
  - intros i Hi HiL. split; [|split].
    + unfold cells_in_row. apply (filter_range first); try lia.
      intros j Hj. rewrite (la_strip _ _ _ La) by (unfold inb; lia).
      destruct ((first <=? j) && (j <? first + p_N0 (m_P m)))%Z%bool; reflexivity.
    + unfold cells_in_row.
      assert (Hn : forall p (l : list Z), (List.length (filter p l) + List.length (filter (fun j => negb (p j)) l) = List.length l)%nat).
      { intros p l. induction l as [|a l IH]; cbn; [reflexivity|]. destruct (p a); cbn; lia. }
      specialize (Hn (fun j => s_cell_type (m_st m) i j =? CHANNEL)%Z (zrange (p_W (m_P m)))).
      pose proof (filter_range first (p_N0 (m_P m)) (p_W (m_P m)) (fun j => s_cell_type (m_st m) i j =? CHANNEL)%Z) as Hf.
      rewrite Hf in Hn; try lia.
      2:{ intros j Hj. rewrite (la_strip _ _ _ La) by (unfold inb; lia).
          destruct ((first <=? j) && (j <? first + p_N0 (m_P m)))%Z%bool; reflexivity. }
      unfold zrange in Hn at 2. rewrite map_length, seq_length in Hn.
      rewrite (filter_ext_in _ (fun j => negb (s_cell_type (m_st m) i j =? CHANNEL)%Z)); [lia|].
      intros j Hj. unfold zrange in Hj. apply in_map_iff in Hj as (k & <- & Hk). apply in_seq in Hk.
      rewrite (la_strip _ _ _ La) by (unfold inb; lia).
      destruct ((first <=? _) && _)%Z%bool; reflexivity.
    + rewrite (la_strip _ _ _ La) by (unfold inb; lia).
      replace ((first <=? p_CTR (m_P m)) && (p_CTR (m_P m) <? first + p_N0 (m_P m)))%Z%bool with true by lia. reflexivity.
  - intros i j Hij Hi. pose proof (in_depth _ _ _ HI i j Hij) as Hd.
    replace (p_L0 (m_P m) <=? i)%Z with true in Hd by lia.
    assert (Hct : s_cell_type (m_st m) i j = EDGE \/ s_cell_type (m_st m) i j = OCEAN).
    { destruct (Rle_lt_dec (Rmin (IZR (p_L (m_P m) - 5)) (IZR (p_W (m_P m)) / 2 - 5))
         (sqrt (IZR ((i - 3) * (i - 3) + (j - p_CTR (m_P m)) * (j - p_CTR (m_P m)))))) as [Hr|Hr].
      - left. apply (la_radius _ _ _ La); auto.
      - destruct (Z.eq_dec i (p_L (m_P m) - 1)); [left; apply (la_border _ _ _ La); auto|].
        destruct (Z.eq_dec j 0); [left; apply (la_border _ _ _ La); auto|].
        destruct (Z.eq_dec j (p_W (m_P m) - 1)); [left; apply (la_border _ _ _ La); auto|].
        right. apply (la_ocean _ _ _ La); auto; unfold inb in Hij; lia. }
    split; [|split; [|exact Hd]]; destruct Hct as [-> | ->]; discriminate.
Qed.
Print Assumptions C70_metadata_describe_the_domain.

(** With subsidence the header also has the lowering of the bed per time step
    in every cell, none in the inlet strip, and the start of subsidence in
    whole seconds, the fraction of a second dropped; without subsidence it
    has neither. *)
Theorem C70_subsidence_metadata :
  forall (S N : Type) (G : Rng R S) (GN : NpRng N) (store : R -> R) x on md ts legacy (c : inputs R) (nb : S) (np np' : N) m,
    selects x on -> metas_on on md -> construct (A:=RX) c nb np = Ok (m, np') ->
    exists h, init_output_file (A:=RX) store legacy (open_writer x md ts) (m_P m) (m_st m) = Some h /\
      if i_toggle_subsidence c then
        exists n sigma, has h "meta/start_subsidence" "seconds" [] (HInt n) /\
          ((0 <= i_start_subsidence c)%R -> (IZR n <= i_start_subsidence c < IZR n + 1)%R) /\
          has h "meta/sigma" "meters per timestep" [row_dim legacy; col_dim legacy] (HNums sigma) /\
          (forall i j, sigma i j = store (lowering (m_P m) (i_subsidence_rate c) i))
      else dget "meta/start_subsidence" (h_vars h) = None /\ dget "meta/sigma" (h_vars h) = None.
Proof.
  intros S N G GN store x on md ts legacy c nb np np' m HS HM E. pose proof (construct_outcome c nb np) as H.
  change RX with (RA (fun x => x)) in *. rewrite E in H.
  destruct H as (HA & _ & _ & z & _ & _ & _ & _ & HD & _).
  exists (made (A:=RA (fun x => x)) store x legacy (m_P m) (m_st m)).
  split; [exact (file_made store x on md ts legacy HS (m_P m) (m_st m) HM)|].
  assert (Ht : p_toggle_subsidence (m_P m) = i_toggle_subsidence c) by apply (de_copied _ _ HD).
  assert (Hs : p_start_subsidence (m_P m) = i_start_subsidence c) by apply (de_copied _ _ HD).
  pose proof (de_sigma _ _ HD) as Hg.
  assert (HN : forall k v, dget k (coordinates (A:=RA (fun x => x)) store legacy (m_P m)) = None ->
    ~ In k ["eta"; "stage"; "depth"; "discharge"; "velocity"; "sedflux"; "sandfrac"; "discharge_x"; "discharge_y";
          "velocity_x"; "velocity_y"] ->
    dget k (meta_vars (A:=RA (fun x => x)) store legacy (m_P m) (m_st m)) = v ->
    dget k (h_vars (made (A:=RA (fun x => x)) store x legacy (m_P m) (m_st m))) = v)
    by (intros k v; apply (made_meta (A:=RA (fun x => x)) store x on legacy HS)).
  unfold meta_vars in HN. rewrite Ht, Hs in HN. destruct (i_toggle_subsidence c).
  - do 2 eexists. split; [|split; [|split]].
    + apply HN; [destruct legacy; reflexivity|cbn; intuition discriminate|reflexivity].
    + intros H0. cbn [ftrunc RA]. rewrite Ztrunc_floor by exact H0.
      split; [apply Zfloor_lb|apply Zfloor_ub].
    + apply HN; [destruct legacy; reflexivity|cbn; intuition discriminate|reflexivity].
    + intros i j. cbn beta. rewrite Hg. reflexivity.
  - split; apply HN; try (destruct legacy; reflexivity); cbn; intuition discriminate.
Qed.
Print Assumptions C70_subsidence_metadata.

(** In the older file format the coordinates, although labelled metres, count
    cells: x is the column and y the row. *)
Theorem C70_legacy_coordinates :
  forall (S N : Type) (G : Rng R S) (GN : NpRng N) (store : R -> R) x on md ts (c : inputs R) (nb : S) (np np' : N) m,
    selects x on -> metas_on on md -> construct (A:=RX) c nb np = Ok (m, np') ->
    exists h vx vy, init_output_file (A:=RX) store true (open_writer x md ts) (m_P m) (m_st m) = Some h /\
      h_dims h = [("length", Some (p_L (m_P m))); ("width", Some (p_W (m_P m))); ("total_time", None)] /\
      has h "x" "meter" ["length"; "width"] (HNums vx) /\ (forall i j, vx i j = store (IZR j)) /\
      has h "y" "meter" ["length"; "width"] (HNums vy) /\ (forall i j, vy i j = store (IZR i)).
Proof.
  intros S N G GN store x on md ts c nb np np' m HS HM E. change RX with (RA (fun x => x)) in *.
  exists (made (A:=RA (fun x => x)) store x true (m_P m) (m_st m)). do 2 eexists.
  split; [exact (file_made store x on md ts true HS (m_P m) (m_st m) HM)|]. split; [reflexivity|].
  split; [apply made_coordinate; reflexivity|]. split; [reflexivity|].
  split; [apply made_coordinate; reflexivity|]. reflexivity.
Qed.
Print Assumptions C70_legacy_coordinates.

(** So they are not positions in metres unless cells are one metre wide: a
    model with cells of 50 metres. *)
Theorem C70_legacy_metres_refuted :
  ~ (forall (c : inputs R) x on md ts np np' m h vx,
       selects x on -> metas_on on md -> construct (A:=RX) (G:=half_rng) (GN:=count_rng) c tt np = Ok (m, np') ->
       init_output_file (A:=RX) (fun x => x) true (open_writer x md ts) (m_P m) (m_st m) = Some h ->
       has h "x" "meter" ["length"; "width"] (HNums vx) ->
       forall i j, vx i j = (IZR j * i_dx c)%R).
Proof.
  intros H. destruct C42_hypotheses as (m & np' & E & _).
  destruct (configured_ok (fun s => same_switch s (Grd GEta))) as (x & _ & Hx).
  assert (HM : metas_on (fun s => same_switch s (Grd GEta)) false) by (right; exists GEta; reflexivity).
  destruct (C70_legacy_coordinates _ _ half_rng count_rng (fun x => x) x _ false false _ tt 0%Z np' m Hx HM E)
    as (h & vx & vy & Eh & _ & Ex & Hvx & _).
  specialize (H _ x _ false false 0%Z np' m h vx Hx HM E Eh Ex 0%Z 1%Z). rewrite Hvx in H. cbn in H. lra.
Qed.
Print Assumptions C70_legacy_metres_refuted.

(** Units: elevations and depths are labelled metres, speeds metres per
    second, the sand share a fraction, and the discharge grids cubic metres
    per second. *)
Theorem C70_grid_units :
  forall (F : Type) (A : Arith F) (S : Type) (store : F -> F) x on md ts legacy (P : params F) (st : state F S),
    selects x on -> metas_on on md ->
    exists h, init_output_file store legacy (open_writer x md ts) P st = Some h /\
      forall g name a, on (Grd g) = true -> In (name, a) (grd_outputs g) ->
        has h name
          (match g with
           | GEta | GStage | GDepth => "meters"
           | GDischarge | GDischargeXY | GSedflux => "cubic meters per second"
           | GVelocity | GVelocityXY => "meters per second"
           | GSandfrac => "fraction"
           end) [time_dim legacy; row_dim legacy; col_dim legacy] HSeries.
Proof.
  intros F A S store x on md ts legacy P st HS HM. exists (made store x legacy P st).
  split; [exact (file_made store x on md ts legacy HS P st HM)|]. intros g name a Hg Hi. unfold has.
  rewrite (made_grid store x on legacy HS P st name a) by (apply (se_vars _ _ HS); eauto).
  do 2 f_equal. destruct g; cbn in Hi; repeat (destruct Hi as [Hi|Hi]; [injection Hi as <- _; reflexivity|]); destruct Hi.
Qed.
Print Assumptions C70_grid_units.

(** The discharge in the file is speed times depth (C43: of a new model in
    every cell with water), but its units are not the product of theirs. *)
Theorem C70_discharge_units_refuted :
  forall (S N : Type) (G : Rng R S) (GN : NpRng N) x on md ts legacy (c : inputs R) (nb : S) (np np' : N) m,
    selects x on -> metas_on on md ->
    on (Grd GDischarge) = true -> on (Grd GVelocity) = true -> on (Grd GDepth) = true ->
    construct (A:=RX) c nb np = Ok (m, np') ->
    exists h q u d dims, init_output_file (A:=RX) (fun x => x) legacy (open_writer x md ts) (m_P m) (m_st m) = Some h /\
      has h "discharge" q dims HSeries /\ has h "velocity" u dims HSeries /\ has h "depth" d dims HSeries /\
      (forall i j, (0 < s_depth (m_st m) i j)%R ->
         s_qw (m_st m) i j = s_uw (m_st m) i j * s_depth (m_st m) i j)%R /\
      dimension q <> product (dimension u) (dimension d) /\
      dimension "square meters per second" = product (dimension u) (dimension d).
Proof.
  intros S N G GN x on md ts legacy c nb np np' m HS HM Hq Hu Hd E.
  pose proof (construct_outcome c nb np) as H. change RX with (RA (fun x => x)) in *. rewrite E in H.
  destruct H as (_ & _ & _ & z & _ & _ & _ & _ & _ & HI & _).
  destruct (C70_grid_units _ (RA (fun x => x)) _ (fun x => x) x on md ts legacy (m_P m) (m_st m) HS HM) as (h & Eh & Hg).
  exists h, "cubic meters per second", "meters per second", "meters", [time_dim legacy; row_dim legacy; col_dim legacy].
  split; [exact Eh|]. split; [apply (Hg GDischarge "discharge" "qw"); cbn; auto|].
  split; [apply (Hg GVelocity "velocity" "uw"); cbn; auto|]. split; [apply (Hg GDepth "depth" "depth"); cbn; auto|].
  split; [intros i j Hij; symmetry; apply (in_speed _ _ _ HI i j Hij)|]. split; [discriminate|reflexivity].
Qed.
Print Assumptions C70_discharge_units_refuted.

(** The hypotheses hold for the example model saving depth, discharge and
    speed. *)
Example C70_hypotheses : exists x m np',
  selects x (fun s => same_switch s (Grd GDepth) || same_switch s (Grd GDischarge) || same_switch s (Grd GVelocity)) /\
  metas_on (fun s => same_switch s (Grd GDepth) || same_switch s (Grd GDischarge) || same_switch s (Grd GVelocity)) false /\
  construct (A:=RX) (G:=half_rng) (GN:=count_rng) (exI (A:=RX)) tt 0%Z = Ok (m, np') /\ (5 <= p_W (m_P m))%Z.
Proof.
  destruct (configured_ok (fun s => same_switch s (Grd GDepth) || same_switch s (Grd GDischarge) || same_switch s (Grd GVelocity)))
    as (x & _ & Hx).
  destruct C43_hypotheses as (m & np' & E & HW). exists x, m, np'.
  split; [exact Hx|]. split; [right; exists GDepth; reflexivity|]. split; [exact E|exact HW].
Qed.

(** The same file computed in double precision, with subsidence: integers
    and labels of the metadata, and the position of the fourth row. *)
Example C70_binary64 :
  match construct (A:=F64) (G:=lcg) (seti_toggle_subsidence true exI) 7%Z 0%Z with
  | Ok (m, _) =>
      match init_output_file (A:=F64) (fun x => x) false (open_writer no_selection true true) (m_P m) (m_st m) with
      | Some h => (h_dims h,
          map (fun kv => (fst kv, v_units (snd kv), match v_value (snd kv) with HInt z => Some z | _ => None end)) (h_vars h),
          match dget "x" (h_vars h) with Some (mkVar _ _ (HVec v)) => sf_trunc (v 3%Z) | _ => 0%Z end)
      | None => ([], [], 0%Z)
      end
  | Err _ => ([], [], 0%Z)
  end =
  ([("x", Some 12%Z); ("y", Some 14%Z); ("time", None)],
   [("time", "second", None); ("x", "meter", None); ("y", "meter", None);
    ("meta/L0", "cells", Some 3%Z); ("meta/N0", "cells", Some 3%Z); ("meta/CTR", "cells", Some 6%Z);
    ("meta/dx", "meters", None); ("meta/h0", "meters", None); ("meta/hb", "meters", None);
    ("meta/cell_type", "type", None); ("meta/start_subsidence", "seconds", Some 150000%Z);
    ("meta/sigma", "meters per timestep", None); ("meta/H_SL", "meters", None); ("meta/f_bedload", "fraction", None);
    ("meta/C0_percent", "percent", None); ("meta/u0", "meters per second", None)], 150%Z).
Proof. vm_compute. reflexivity. Qed.
