(** C74: where the debugging tools draw. *)
From Coq Require Import ZArith List Bool Lia.
From Verif Require Import Base Shared SharedSpec SharedProofs Water WalkProofs Debug DebugSpec DebugProofs.
Import ListNotations.
Local Open Scope Z_scope.

(** C74. An attribute is shown exactly if it is given by name and is an array
    with two axes; otherwise the exception says what is wrong. *)
Theorem C74_attribute_shown_iff : forall name : option attr_value,
  (forall n, show_attribute name = Ok n <-> name = Some (Array 2) /\ n = 2%nat) /\
  (show_attribute name = Err ValueError <-> exists n, name = Some (Array n) /\ n <> 2%nat) /\
  (show_attribute name = Err TypeError <-> name = None \/ name = Some NotArray) /\
  (show_attribute name = Err AttributeError <-> name = Some Missing).
Proof.
  intros name. split; [intros m; split|split; [split|split; split]]; intros H.
  - destruct name as [[| |n]|]; unfold show_attribute, get_attribute in H; try discriminate. destruct (Nat.eqb_spec n 2) as [->|N]; cbn in H; [|discriminate].
    injection H as <-. auto.
  - destruct H as [-> ->]. reflexivity.
  - destruct name as [[| |n]|]; unfold show_attribute, get_attribute in H; try discriminate. destruct (Nat.eqb_spec n 2) as [E|N]; [rewrite E in H; discriminate H|]. exists n. auto.
  - destruct H as (n & -> & N). unfold show_attribute, get_attribute. destruct (Nat.eqb_spec n 2); [contradiction|reflexivity].
  - destruct name as [[| |n]|]; unfold show_attribute, get_attribute in H; try discriminate; auto. destruct (Nat.eqb n 2); discriminate.
  - destruct H as [->| ->]; reflexivity.
  - destruct name as [[| |n]|]; unfold show_attribute, get_attribute in H; try discriminate; auto. destruct (Nat.eqb n 2); discriminate.
  - subst. reflexivity.
Qed.
Print Assumptions C74_attribute_shown_iff.

(** C74. Points given as pairs, as flat numbers or as any mixture are all
    drawn, in order, each where the plot of a field shows that cell. *)
Theorem C74_points_drawn_at_their_cells : forall (shape : Z * Z) (l : list index) (cs : list cell),
  Forall2 (fun x c => names shape x c /\ in_domain shape c) l cs ->
  show_ind shape (Many l) = (map place cs, Ok tt) /\
  (forall x c, names shape x c -> in_domain shape c -> show_ind shape (One x) = ([place c], Ok tt)) /\
  show_ind shape (One (Arr (Arr1 (map (number shape) cs)))) = (map place cs, Ok tt).
Proof.
  intros [L W] l cs H. split; [|split].
  - cbn [show_ind]. apply (each_ok _ (fun x p => exists c, (names (L,W) x c /\ in_domain (L,W) c) /\ p = place c)).
    + intros x p (c & Hc & ->). exact (plot_named L W x c Hc).
    + induction H; constructor; eauto.
  - intros x c Hn Hd. pose proof (plot_named L W x c (conj Hn Hd)) as E.
    destruct Hn; cbn [show_ind each]; rewrite E; reflexivity.
  - cbn [show_ind elements].
    apply (each_ok _ (fun x p => exists c, (names (L,W) x c /\ in_domain (L,W) c) /\ p = place c)).
    + intros x p (c & Hc & ->). exact (plot_named L W x c Hc).
    + induction H as [|x c l cs [_ Hd] _ IH]; cbn; constructor; [|exact IH]. exists c. split; [|reflexivity].
      split; [constructor|exact Hd].
Qed.
Print Assumptions C74_points_drawn_at_their_cells.

(** C74. The first point with a number beyond the domain, or a tuple that is
    not a pair, stops the call; the points before it are drawn. *)
Theorem C74_bad_point_stops : forall (shape : Z * Z) (l rest : list index) (cs : list cell) (x : index) (e : exn),
  Forall2 (fun x c => names shape x c /\ in_domain shape c) l cs ->
  (exists n, x = Flat n /\ fst shape * snd shape < n /\ e = IndexError) \/
  (exists t, x = Tup t /\ length t <> 2%nat /\ e = ValueError) ->
  show_ind shape (Many (l ++ x :: rest)) = (map place cs, Err e).
Proof.
  intros [L W] l rest cs x e H Hx. cbn [show_ind].
  apply (each_stop _ (fun x p => exists c, (names (L,W) x c /\ in_domain (L,W) c) /\ p = place c)).
  - intros y p (c & Hc & ->). exact (plot_named L W y c Hc).
  - induction H; constructor; eauto.
  - destruct Hx as [(n & -> & Hn & ->)|(t & -> & Ht & ->)]; cbn.
    + cbn in Hn. replace (W * L <? n) with true by (symmetry; apply Z.ltb_lt; lia). reflexivity.
    + destruct t as [|a [|b [|c t]]]; try reflexivity. cbn in Ht. lia.
Qed.
Print Assumptions C74_bad_point_stops.

(** C74. A line given by flat numbers goes through its cells in order; with
    [nozeros] it is interrupted exactly at cell number 0.  Each column of a
    table is a line of its own under [multiline]; what is drawn is returned. *)
Theorem C74_lines_through_their_cells : forall (shape : Z * Z) (nozeros multiline : bool) (cs : list cell),
  Forall (in_domain shape) cs ->
  let drawn := map (fun c => if (number shape c =? 0) && nozeros then None else Some (place c)) cs in
  show_line shape multiline nozeros (One (Arr (Arr1 (map (number shape) cs)))) = ([drawn], Ok [drawn]) /\
  (forall c, In c cs -> (number shape c = 0 <-> c = (0, 0))).
Proof.
  intros [L W] nz ml cs H drawn. split.
  - assert (E : plot_line1 (L, W) nz (map (number (L, W)) cs) = Ok drawn).
    { unfold plot_line1. apply (mapM_rel _ (fun n p => exists c, in_domain (L,W) c /\ n = number (L,W) c /\
        p = if (n =? 0) && nz then None else Some (place c))).
      - intros n p (c & Hc & -> & ->). apply line_number; exact Hc.
      - unfold drawn. clear drawn. induction H as [|c cs Hc _ IH]; cbn; constructor; [|exact IH]. exists c. auto. }
    cbn [show_line each]. rewrite E. reflexivity.
  - rewrite Forall_forall in H. intros c Hc. apply number_0. exact (H c Hc).
Qed.
Print Assumptions C74_lines_through_their_cells.

Theorem C74_one_line_for_each_column : forall (shape : Z * Z) (nozeros : bool) (n : nat) (table : list (list cell)),
  table <> [] -> Forall (fun row => length row = n /\ Forall (in_domain shape) row) table ->
  let lines := map (fun k => map (fun row => let c := nth k row (0, 0) in
      if (number shape c =? 0) && nozeros then None else Some (place c)) table) (seq 0 n) in
  show_line shape true nozeros (One (Arr (Arr2 (map (map (number shape)) table)))) = (lines, Ok lines).
Proof.
  intros [L W] nz n table Hne H lines. cbn [show_line].
  assert (Ec : columns (map (map (number (L, W))) table) = n).
  { destruct table as [|r t]; [contradiction|]. cbn. rewrite map_length. apply Forall_inv in H. apply H. }
  rewrite Ec.
  assert (E : each (plot_line1 (L, W) nz) (map (column (map (map (number (L, W))) table)) (seq 0 n)) = (lines, Ok tt)).
  { apply (each_ok _ (fun l d => exists k, (k < n)%nat /\ l = column (map (map (number (L, W))) table) k /\
      d = map (fun row => let c := nth k row (0, 0) in if (number (L,W) c =? 0) && nz then None else Some (place c)) table)).
    - intros l d (k & Hk & -> & ->). unfold plot_line1, column.
      apply (mapM_rel _ (fun m p => exists c, in_domain (L,W) c /\ m = number (L,W) c /\
        p = if (m =? 0) && nz then None else Some (place c))).
      + intros m p (c & Hc & -> & ->). apply line_number; exact Hc.
      + clear Ec lines Hne. induction H as [|row t [Hl Hr] _ IH]; cbn [map]; constructor; [|exact IH].
        exists (nth k row (0, 0)). assert (Hk' : (k < length row)%nat) by lia. rewrite Forall_forall in Hr.
        assert (En : nth k (map (number (L, W)) row) 0 = number (L, W) (nth k row (0, 0))).
        { rewrite (nth_indep _ 0 (number (L, W) (0, 0))) by (rewrite map_length; exact Hk'). apply map_nth. }
        split; [apply Hr, nth_In; exact Hk'|]. split; [exact En|]. rewrite En. reflexivity.
    - unfold lines. clear Ec lines H Hne. 
      assert (Hs : Forall (fun k => (k < n)%nat) (seq 0 n)) by (apply Forall_forall; intros k Hk; apply in_seq in Hk; lia).
      induction Hs as [|k s Hk _ IH]; cbn [map]; constructor; [|exact IH]. exists k. auto. }
  rewrite E. reflexivity.
Qed.
Print Assumptions C74_one_line_for_each_column.

(** C74 refuted: a table of (row, column) pairs is drawn by [show_line] with
    rows and columns exchanged, unlike by [show_ind]: it is right only on the
    diagonal. *)
Theorem C74_line_of_pairs_transposed_refuted : forall (shape : Z * Z) (nozeros : bool) (cs : list cell),
  let line := map (fun c => Some (fst c, snd c)) cs in
  show_line shape false nozeros (One (Arr (Arr2 (map (fun c => [fst c; snd c]) cs)))) = ([line], Ok [line]) /\
  show_ind shape (Many (map (fun c => Tup [fst c; snd c]) cs)) = (map place cs, Ok tt) /\
  (line = map (fun c => Some (place c)) cs <-> forall c, In c cs -> fst c = snd c).
Proof.
  intros shape nz cs line. split; [|split].
  - assert (E : plot_line2 (map (fun c : cell => [fst c; snd c]) cs) = Ok line).
    { unfold plot_line2, line. clear line. induction cs as [|c cs IH]; [reflexivity|]. cbn. cbn in IH. rewrite IH. reflexivity. }
    unfold show_line, each. change (@fst Z Z) with (fun c : cell => fst c) in *. unfold cell in *. rewrite E. reflexivity.
  - cbn [show_ind]. clear line. induction cs as [|c cs IH]; [reflexivity|]. cbn. cbn in IH. rewrite IH. destruct c; reflexivity.
  - unfold line. clear line. induction cs as [|c cs IH]; cbn; [tauto|]. split.
    + intros H. pose proof (f_equal (fun l => hd None l) H) as H1. cbn [hd] in H1.
      pose proof (f_equal (@tl _) H) as H2. cbn [tl] in H2.
      intros c' [<-|Hc]; [|exact (proj1 IH H2 c' Hc)]. clear -H1. destruct c as [i j]. unfold place in H1. cbn [fst snd] in *. injection H1 as -> _. reflexivity.
    + intros H. rewrite (proj2 IH (fun c' Hc => H c' (or_intror Hc))). specialize (H c (or_introl eq_refl)). destruct c as [i j]. cbn in *. subst. reflexivity.
Qed.
Print Assumptions C74_line_of_pairs_transposed_refuted.

(** C74 refuted: lists of pairs and lists of numbers, documented for
    [show_line], are rejected, and so is the empty list; a list of several
    lines draws them all but returns only the last. *)
Theorem C74_line_from_list_refuted : forall (shape : Z * Z) (multiline nozeros : bool),
  (forall x rest, (exists n, x = Flat n) \/ (exists t, x = Tup t) ->
     show_line shape multiline nozeros (Many (x :: rest)) = ([], Err AttributeError)) /\
  show_line shape multiline nozeros (Many []) = ([], Err UnboundLocalError) /\
  (forall l, Forall (in_domain shape) l ->
     let drawn cs := map (fun c => if (number shape c =? 0) && nozeros then None else Some (place c)) cs in
     forall k, show_line shape multiline nozeros (Many (repeat (Arr (Arr1 (map (number shape) l))) (S k)))
       = (repeat (drawn l) (S k), Ok [drawn l])).
Proof.
  intros [L W] ml nz. split; [|split; [reflexivity|]].
  - intros x rest [[n ->]|[t ->]]; reflexivity.
  - intros l H drawn k.
    assert (E : plot_element (L, W) nz (Arr (Arr1 (map (number (L, W)) l))) = Ok (drawn l)).
    { cbn [plot_element flatten]. unfold plot_line1. apply (mapM_rel _ (fun n p => exists c, in_domain (L,W) c /\ n = number (L,W) c /\
        p = if (n =? 0) && nz then None else Some (place c))).
      - intros n p (c & Hc & -> & ->). apply line_number; exact Hc.
      - unfold drawn. clear drawn. induction H as [|c cs Hc _ IH]; cbn; constructor; [|exact IH]. exists c. auto. }
    cbn [show_line].
    assert (E2 : forall m, each (plot_element (L, W) nz) (repeat (Arr (Arr1 (map (number (L, W)) l))) m) = (repeat (drawn l) m, Ok tt)).
    { induction m as [|m IH]; [reflexivity|]. cbn [repeat each]. rewrite E, IH. reflexivity. }
    rewrite E2. f_equal. assert (Er : forall m, rev (repeat (drawn l) m) = repeat (drawn l) m).
    { induction m as [|m IH]; [reflexivity|]. cbn. rewrite IH. clear. induction m; [reflexivity|]. cbn. f_equal. exact IHm. }
    rewrite Er. reflexivity.
Qed.
Print Assumptions C74_line_from_list_refuted.

(** C74. A list of tables: each is one line through its cells, row after row,
    and all of them are drawn. *)
Theorem C74_list_of_tables : forall (shape : Z * Z) (multiline nozeros : bool) (tables : list (list (list cell))) (last : list (list cell)),
  Forall (Forall (Forall (in_domain shape))) (tables ++ [last]) ->
  let line table := map (fun c => if (number shape c =? 0) && nozeros then None else Some (place c)) (concat table) in
  show_line shape multiline nozeros (Many (map (fun table => Arr (Arr2 (map (map (number shape)) table))) (tables ++ [last])))
    = (map line (tables ++ [last]), Ok [line last]).
Proof.
  intros [L W] ml nz tables last H line. cbn [show_line].
  assert (E : each (plot_element (L, W) nz) (map (fun table => Arr (Arr2 (map (map (number (L, W))) table))) (tables ++ [last]))
    = (map line (tables ++ [last]), Ok tt)).
  { apply (each_ok _ (fun x d => exists t, Forall (Forall (in_domain (L, W))) t /\ x = Arr (Arr2 (map (map (number (L, W))) t)) /\ d = line t)).
    - intros x d (t & Ht & -> & ->). cbn [plot_element flatten]. rewrite <- concat_map. unfold plot_line1. unfold line.
      assert (Hc : Forall (in_domain (L, W)) (concat t)) by (apply Forall_concat; exact Ht).
      apply (mapM_rel _ (fun n p => exists c, in_domain (L,W) c /\ n = number (L,W) c /\ p = if (n =? 0) && nz then None else Some (place c))).
      + intros n p (c & Hd & -> & ->). apply line_number; exact Hd.
      + induction Hc as [|c cs Hd _ IH]; cbn; constructor; [|exact IH]. exists c. auto.
    - induction H as [|t ts Ht _ IH]; cbn [map]; constructor; [|exact IH]. exists t. auto. }
  rewrite E, map_app, rev_app_distr. reflexivity.
Qed.
Print Assumptions C74_list_of_tables.
Example C74_list_of_tables_case :
  show_line (3, 4) true false (Many [Arr (Arr2 [[0; 1]; [5; 6]]); Arr (Arr2 [[4; 9]])])
    = ([[Some (0, 0); Some (1, 0); Some (1, 1); Some (2, 1)]; [Some (0, 1); Some (1, 2)]], Ok [[Some (0, 1); Some (1, 2)]]).
Proof. reflexivity. Qed.

(** C74 refuted: the number just past the last cell and negative numbers are
    drawn outside the domain instead of being rejected. *)
Theorem C74_points_outside_drawn_refuted : forall L W : Z, 1 <= L -> 1 <= W ->
  show_ind (L, W) (One (Flat (L * W))) = ([(0, L)], Ok tt) /\
  show_ind (L, W) (One (Flat (-1))) = ([(W - 1, -1)], Ok tt).
Proof.
  intros L W HL HW. cbn [show_ind each plot_ind]. unfold custom_unravel. split.
  - replace (W * L <? L * W) with false by (symmetry; apply Z.ltb_ge; lia). cbn [rbind].
    rewrite Z.div_mul, Z.mod_mul by lia. reflexivity.
  - replace (W * L <? -1) with false by (symmetry; apply Z.ltb_ge; nia). cbn [rbind].
    assert (Ed : -1 / W = -1) by (symmetry; apply (Z.div_unique (-1) W (-1) (W - 1)); lia).
    assert (Em : -1 mod W = W - 1) by (symmetry; apply (Z.mod_unique (-1) W (-1) (W - 1)); lia).
    rewrite Ed, Em. reflexivity.
Qed.
Print Assumptions C74_points_outside_drawn_refuted.

(** Non-vacuity: the call of the module's docstring on a grid of 60 x 120
    cells, and lines. *)
Example C74_example :
  show_ind (60, 120) (Many [Flat 3378; Tup [42; 94]; Tup [41; 8]; Flat 514]) =
    ([(18, 28); (94, 42); (8, 41); (34, 4)], Ok tt) /\
  Forall2 (fun x c => names (60, 120) x c /\ in_domain (60, 120) c)
    [Flat 3378; Tup [42; 94]; Tup [41; 8]; Flat 514] [(28, 18); (42, 94); (41, 8); (4, 34)] /\
  show_line (60, 120) false true (One (Arr (Arr1 [130; 0; 251]))) =
    ([[Some (10, 1); None; Some (11, 2)]], Ok [[Some (10, 1); None; Some (11, 2)]]) /\
  show_line (60, 120) true false (One (Arr (Arr2 [[130; 1]; [251; 2]]))) =
    ([[Some (10, 1); Some (11, 2)]; [Some (1, 0); Some (2, 0)]], Ok [[Some (10, 1); Some (11, 2)]; [Some (1, 0); Some (2, 0)]]) /\
  show_line (60, 120) false false (One (Arr (Arr2 [[42; 94]; [41; 8]]))) =
    ([[Some (42, 94); Some (41, 8)]], Ok [[Some (42, 94); Some (41, 8)]]).
Proof.
  repeat split; try reflexivity.
  assert (B : forall n i j, number (60, 120) (i, j) = n -> 0 <= i < 60 -> 0 <= j < 120 ->
    names (60, 120) (Flat n) (i, j) /\ in_domain (60, 120) (i, j)).
  { intros n i j <- Hi Hj. split; [constructor|split; cbn; lia]. }
  assert (C : forall i j, 0 <= i < 60 -> 0 <= j < 120 -> names (60, 120) (Tup [i; j]) (i, j) /\ in_domain (60, 120) (i, j)).
  { intros i j Hi Hj. split; [constructor|split; cbn; lia]. }
  repeat constructor; first [apply B; [reflexivity|lia|lia] | apply C; lia | idtac]; cbn; try lia.
Qed.
