(** Property C88: only the cells of the domain matter. *)
From Coq Require Import ZArith List Bool Reals Lra Lia.
From Verif Require Import Base SharedSpec Shared Params State Water WaterSpec Sed SedSpec Iter IterSpec
  Examples Inputs Init InitSpec Session SessionSpec ResumeProofs Props_Iter DomainSpec DomainProofs.
Import ListNotations.
Local Open Scope Z_scope.

(** ** C88 *)
(** Two states with the same numbers in every cell of the domain (and the same
    scalars): any number of updates either raises the same exception in both,
    or gives the same numbers in every cell, the same records and the same
    checkpoints.  Nothing outside the arrays is ever read: no window at an edge,
    no shifted copy, no step of a parcel.  In every arithmetic, with every
    generator, for every set of parameters. *)
Theorem C88_only_the_domain_matters :
  forall (F : Type) (A : Arith F) (S : Type) (G : Rng F S) (P : params F) n (a b : state F S),
    1 <= p_L P -> 1 <= p_W P -> same_inside P a b ->
    alike (fun x y => same_inside P (fst x) (fst y) /\ Forall2 (same_written P) (snd x) (snd y))
      (updates P n a) (updates P n b).
Proof. intros F A S G P n a b HL HW. exact (updates_on P HL HW n a b). Qed.
Print Assumptions C88_only_the_domain_matters.

(** Of these numbers an update looks at bed, water, velocities, discharges,
    composition, cell types, hook arrays, sea level, clock and generator only:
    the fields of the last step (sediment flux, deposits, accumulators, last
    bed), the counters of the output and the width of the record of paths may
    differ.  With equal counters the records are the same. *)
Theorem C88_what_an_update_looks_at :
  forall (F : Type) (A : Arith F) (S : Type) (G : Rng F S) (P : params F) n (a b : state F S),
    1 <= p_L P -> 1 <= p_W P -> same_essence P a b ->
    s_width a = s_width b \/ (4 <= p_stepmax P /\ 1 <= s_width a /\ 1 <= s_width b) ->
    alike (fun x y => same_essence P (fst x) (fst y) /\
      (s_save_time_since_data a = s_save_time_since_data b -> s_save_iter a = s_save_iter b ->
       Forall2 (same_entry P) (shown_records (snd x)) (shown_records (snd y))))
      (updates P n a) (updates P n b).
Proof. intros F A S G P n a b HL HW. exact (essence_on P HL HW n a b). Qed.
Print Assumptions C88_what_an_update_looks_at.

(** Two checkpoints with the same numbers in every cell: a model that resumes
    from the one is a model that resumes from the other, through all updates
    that follow. *)
Theorem C88_checkpoints :
  forall (F : Type) (A : Arith F) (S N : Type) (G : Rng F S) (GN : NpRng N) (inp : inputs F) nb (np np' : N) m
    (c d : checkpoint F S) missing,
    construct inp nb np = Ok (m, np') -> 1 <= p_L (m_P m) -> 1 <= p_W (m_P m) -> same_saved (m_P m) c d ->
    alike (fun x y => snd x = snd y /\ m_P (fst x) = m_P m /\ m_P (fst y) = m_P m /\
        forall n, alike (fun x y => same_inside (m_P m) (fst x) (fst y) /\ Forall2 (same_written (m_P m)) (snd x) (snd y))
          (updates (m_P m) n (m_st (fst x))) (updates (m_P m) n (m_st (fst y))))
      (resume inp c missing nb np) (resume inp d missing nb np).
Proof.
  intros F A S N G GN inp nb np np' m c d missing E HL HW H. unfold resume. rewrite E. cbn [rbind].
  eapply alike_rbind; [apply (load_on (m_P m)), H|].
  intros x y _ _ K. cbn [alike fst snd m_P m_st]. split; [reflexivity|]. split; [reflexivity|]. split; [reflexivity|].
  intros n. exact (updates_on (m_P m) HL HW n x y K).
Qed.
Print Assumptions C88_checkpoints.

(** A state and the same state with other depths, beds, cell types and
    discharges outside the 6 x 7 domain. *)
Definition outside {T} (x : T) (g : grid T) : grid T := fun i j => if inbb 6 7 i j then g i j else x.
Definition elsewhere : state R unit :=
  let st := exst (A:=RX) tt in
  set_depth (outside 100%R (s_depth st)) (set_eta (outside (-7)%R (s_eta st)) (set_cell_type (outside LAND (s_cell_type st))
    (set_qx (outside 3%R (s_qx st)) (set_qs (fun _ _ => 9%R) (set_width 5 st))))).
Lemma outside_on {T} (x : T) g : on_grid (p_L (exP (A:=RX))) (p_W (exP (A:=RX))) (outside x g) g.
Proof.
  intros i j Hi Hj. unfold outside. assert (E : inbb 6 7 i j = true) by (apply inbb_spec; split; [exact Hi|exact Hj]).
  rewrite E. reflexivity.
Qed.
Example C88_elsewhere :
  s_depth elsewhere (-1) 0 <> s_depth (exst (A:=RX) tt) (-1) 0 /\
  same_essence (exP (A:=RX)) elsewhere (exst (A:=RX) tt) /\
  forall n, exists x ox y oy,
    updates (A:=RX) (G:=half_rng) (exP (A:=RX)) n elsewhere = Ok (x, ox) /\
    updates (A:=RX) (G:=half_rng) (exP (A:=RX)) n (exst (A:=RX) tt) = Ok (y, oy) /\ same_essence (exP (A:=RX)) x y.
Proof.
  split; [cbn; lra|].
  assert (H : same_essence (exP (A:=RX)) elsewhere (exst (A:=RX) tt))
    by (constructor; first [apply outside_on | reflexivity | intros i j _ _; reflexivity]).
  split; [exact H|]. intros n. destruct (ex_updates n) as (y & oy & E).
  pose proof (C88_what_an_update_looks_at R RX unit half_rng (exP (A:=RX)) n _ _ ltac:(cbn; lia) ltac:(cbn; lia) H) as K.
  rewrite E in K. specialize (K ltac:(right; cbn; lia)).
  destruct (updates (A:=RX) (G:=half_rng) (exP (A:=RX)) n elsewhere) as [[x ox]|e]; [|destruct K].
  exists x, ox, y, oy. split; [reflexivity|]. split; [exact E|]. apply K.
Qed.
