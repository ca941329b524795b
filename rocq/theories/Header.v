(** Model of the header of the output file — dimensions, coordinates, units
    and the metadata that do not vary in time: init_tools.py:223-230, 485-488,
    633-757 and 781-837, model.py:812-1015.  The text attributes of the file
    (description, history, source) are not modelled. *)
From Coq Require Import ZArith List Bool String.
From Verif Require Import Base Dict Params State Inputs Init Switches.
Import ListNotations.
Local Open Scope string_scope.

(** What a variable of the file holds: an integer, a number, a vector, a
    table of integers, a table of numbers, or a value per record, of which
    there is none yet. init_tools.py:633-837. *)
Inductive hvalue (F : Type) : Type :=
| HInt (z : Z) | HNum (x : F) | HVec (v : Z -> F) | HInts (g : grid Z) | HNums (g : grid F) | HSeries.
Arguments HInt {F}. Arguments HNum {F}. Arguments HVec {F}. Arguments HInts {F}. Arguments HNums {F}.
Arguments HSeries {F}.

(** A variable: units, dimensions, contents. init_tools.py:711-757, 781-837. *)
Record hvar (F : Type) : Type := mkVar { v_units : string; v_dims : list string; v_value : hvalue F }.
Arguments mkVar {F}. Arguments v_units {F}. Arguments v_dims {F}. Arguments v_value {F}.

(** A new file: its dimensions, None for the unlimited one, and variables. init_tools.py:633-757. *)
Record header (F : Type) : Type := mkHeader { h_dims : dict (option Z); h_vars : dict (hvar F) }.
Arguments mkHeader {F}. Arguments h_dims {F}. Arguments h_vars {F}.

(** init_tools.py:223-230 *)
Definition time_dim (legacy : bool) : string := if legacy then "total_time" else "time".
(** init_tools.py:223-230 *)
Definition row_dim (legacy : bool) : string := if legacy then "length" else "x".
(** init_tools.py:223-230 *)
Definition col_dim (legacy : bool) : string := if legacy then "width" else "y".

(** Units of a grid by its name in the file — model.py:812-1015 *)
Definition grid_units (name : string) : string :=
  if existsb (String.eqb name) ["eta"; "stage"; "depth"] then "meters"
  else if existsb (String.eqb name) ["discharge"; "sedflux"; "discharge_x"; "discharge_y"] then "cubic meters per second"
  else if existsb (String.eqb name) ["velocity"; "velocity_x"; "velocity_y"] then "meters per second"
  else "fraction".

Section Header.
  Context {F : Type} {A : Arith F} {S : Type}.
  (** A value read back from a variable of type f4. *)
  Context (store : F -> F).

  (** init_tools.py:684-710 with the arrays of init_tools.py:485-488. *)
  Definition coordinates (legacy : bool) (P : params F) : dict (hvar F) :=
    ("time", mkVar "second" [time_dim legacy] HSeries) ::
    if legacy then
      [("x", mkVar "meter" ["length"; "width"] (HNums (fun i j => store (fz j))));
       ("y", mkVar "meter" ["length"; "width"] (HNums (fun i j => store (fz i))))]
    else
      [("x", mkVar "meter" ["x"] (HVec (fun i => store (fmul (fz i) (p_dx P)))));
       ("y", mkVar "meter" ["y"] (HVec (fun j => store (fmul (fz j) (p_dx P)))))].

  (** init_tools.py:712-726 *)
  Definition grid_vars (legacy : bool) (l : dict string) : dict (hvar F) :=
    map (fun kv => (fst kv, mkVar (grid_units (fst kv)) [time_dim legacy; row_dim legacy; col_dim legacy] HSeries)) l.

  (** init_tools.py:728-754 for the variables of init_tools.py:781-837.
      Storing a float in an integer variable drops its fraction. *)
  Definition meta_vars (legacy : bool) (P : params F) (st : state F S) : dict (hvar F) :=
    let plane := [row_dim legacy; col_dim legacy] in
    let series := [time_dim legacy] in
    ([("meta/L0", mkVar "cells" [] (HInt (p_L0 P)));
      ("meta/N0", mkVar "cells" [] (HInt (p_N0 P)));
      ("meta/CTR", mkVar "cells" [] (HInt (p_CTR P)));
      ("meta/dx", mkVar "meters" [] (HNum (store (p_dx P))));
      ("meta/h0", mkVar "meters" [] (HNum (store (p_h0 P))));
      ("meta/hb", mkVar "meters" [] (HNum (store (p_hb P))));
      ("meta/cell_type", mkVar "type" plane (HInts (s_cell_type st)))] ++
     (if p_toggle_subsidence P then
       [("meta/start_subsidence", mkVar "seconds" [] (HInt (ftrunc (p_start_subsidence P))));
        ("meta/sigma", mkVar "meters per timestep" plane (HNums (fun i j => store (p_sigma P i j))))]
      else []) ++
     [("meta/H_SL", mkVar "meters" series HSeries);
      ("meta/f_bedload", mkVar "fraction" series HSeries);
      ("meta/C0_percent", mkVar "percent" series HSeries);
      ("meta/u0", mkVar "meters per second" series HSeries)])%list.

  (** init_tools.py:633-757 (init_output_file) for the switches [w]; None when
      no file is made. *)
  Definition init_output_file (legacy : bool) (w : writer) (P : params F) (st : state F S) : option (header F) :=
    if w_meta w || w_any w then
      Some (mkHeader
        [(row_dim legacy, Some (p_L P)); (col_dim legacy, Some (p_W P)); (time_dim legacy, None)]
        (coordinates legacy P ++ grid_vars legacy (var_list (w_sel w)) ++
         (if w_meta w then meta_vars legacy P st else []))%list)
    else None.
End Header.
