(** Model of the output switches (model.py:656-1015), of the contents of a
    new output file (init_tools.py:318-332, 633-757, 781-837) and of what one
    output record holds (iteration_tools.py:232-440).  Values other than True
    and False of a switch are not modelled. *)
From Coq Require Import ZArith NArith List Bool String.
From Verif Require Import Base Dict Text.
Import ListNotations.
Local Open Scope string_scope.

(** The switches save_*_figs (model.py:656-757). *)
Inductive fig : Type := FEta | FStage | FDepth | FDischarge | FVelocity | FSedflux | FSandfrac.
(** The switches save_*_grids and save_*_components (model.py:812-1015). *)
Inductive grd : Type :=
| GEta | GStage | GDepth | GDischarge | GVelocity | GSedflux | GSandfrac | GDischargeXY | GVelocityXY.

Scheme Equality for fig.
Scheme Equality for grd.

(** _save_fig_list and _save_var_list (its "meta" entry apart): name of the
    output to attribute; and the values of the switches. init_tools.py:37-39. *)
Record selection : Type := mkSel {
  fig_list : dict string; var_list : dict string;
  fig_on : fig -> bool; grd_on : grd -> bool }.

(** init_tools.py:37-39; the switches have no value yet, here false. *)
Definition no_selection : selection := mkSel [] [] (fun _ => false) (fun _ => false).

(** The two branches of the setters: add the entry when switched on and
    absent, delete it when switched off and present. model.py:656-763, 812-1015. *)
Definition toggle (key attr : string) (b : bool) (l : dict string) : dict string :=
  if b then (if dmem key l then l else dset key attr l)
  else (if dmem key l then ddel key l else l).

(** Effect of a figure switch on _save_fig_list; deleting an absent key
    raises. model.py:656-763. *)
Definition fig_entry (f : fig) (b : bool) (l : dict string) : result (dict string) :=
  match f with
  | FEta => (** model.py:656-662 *) Ok (toggle "eta" "eta" b l)
  | FStage => (** model.py:671-677 *) Ok (toggle "stage" "stage" b l)
  | FDepth => (** model.py:686-692 *) Ok (toggle "depth" "depth" b l)
  | FDischarge => (** model.py:701-709 *) Ok (toggle "discharge" "qw" b l)
  | FVelocity => (** model.py:718-728 *)
      if b then Ok (toggle "velocity" "uw" b l)
      else if dmem "velocity" l
           then (if dmem "sedflux" l then Ok (ddel "sedflux" l) else Err KeyError)
           else Ok l
  | FSedflux => (** model.py:737-745 *) Ok (toggle "sedflux" "qs" b l)
  | FSandfrac => (** model.py:755-763 *) Ok (toggle "sandfrac" "sand_frac" b l)
  end.

(** Effect of a grid switch on _save_var_list. model.py:812-1015. *)
Definition grd_entry (g : grd) (b : bool) (l : dict string) : dict string :=
  match g with
  | GEta => (** model.py:812-818 *) toggle "eta" "eta" b l
  | GStage => (** model.py:827-838 *) toggle "stage" "stage" b l
  | GDepth => (** model.py:847-858 *) toggle "depth" "depth" b l
  | GDischarge => (** model.py:867-882 *) toggle "discharge" "qw" b l
  | GVelocity => (** model.py:891-906 *) toggle "velocity" "uw" b l
  | GSedflux => (** model.py:915-930 *) toggle "sedflux" "qs" b l
  | GSandfrac => (** model.py:940-955 *) toggle "sandfrac" "sand_frac" b l
  | GDischargeXY => (** model.py:964-985 *) toggle "discharge_y" "qy" b (toggle "discharge_x" "qx" b l)
  | GVelocityXY => (** model.py:994-1015 *) toggle "velocity_y" "uy" b (toggle "velocity_x" "ux" b l)
  end.

(** Assignment of a switch.  When deletion raises the value of the switch is
    not stored. model.py:656-763, 812-1015. *)
Inductive switch : Type := Fig (f : fig) | Grd (g : grd).
(** model.py:656-763, 812-1015 *)
Definition assign_switch (s : switch) (b : bool) (x : selection) : result selection :=
  match s with
  | Fig f =>
      do l <- fig_entry f b (fig_list x);
      Ok (mkSel l (var_list x) (fun h => if fig_beq f h then b else fig_on x h) (grd_on x))
  | Grd g =>
      Ok (mkSel (fig_list x) (grd_entry g b (var_list x)) (fig_on x)
                (fun h => if grd_beq g h then b else grd_on x h))
  end.
(** A sequence of assignments; an exception ends it. init_tools.py:251-252. *)
Fixpoint assign_all (l : list (switch * bool)) (x : selection) : result selection :=
  match l with
  | [] => Ok x
  | (s, b) :: l' => do x' <- assign_switch s b x; assign_all l' x'
  end.

(** init_tools.py:251-252 in the order of default.yml:73-135. *)
Definition switch_order : list switch :=
  [Fig FEta; Fig FStage; Fig FDepth; Fig FDischarge; Fig FVelocity; Fig FSedflux; Fig FSandfrac;
   Grd GEta; Grd GStage; Grd GDepth; Grd GDischarge; Grd GVelocity; Grd GSedflux; Grd GSandfrac;
   Grd GDischargeXY; Grd GVelocityXY].

(** ** The output file *)

(** init_tools.py:318-328, order irrelevant *)
Definition all_grds : list grd :=
  [GEta; GDepth; GStage; GDischarge; GVelocity; GSedflux; GSandfrac; GDischargeXY; GVelocityXY].

(** init_tools.py:781-837: metadata variables and whether they vary in time. *)
Definition meta_list (toggle_subsidence : bool) : dict bool :=
  ([("L0", false); ("N0", false); ("CTR", false); ("dx", false); ("h0", false); ("hb", false);
    ("cell_type", false)] ++
   (if toggle_subsidence then [("start_subsidence", false); ("sigma", false)] else []) ++
   [("H_SL", true); ("f_bedload", true); ("C0_percent", true); ("u0", true)])%list.

(** A model that writes output: the switches, _save_any_grids, _save_metadata,
    the metadata list, and the grid and metadata variables of the open output
    file. init_tools.py:633-757, 781-837. *)
Record writer : Type := mkWriter {
  w_sel : selection; w_any : bool; w_meta : bool; w_metas : dict bool;
  w_file : option (list string * list string) }.

(** init_tools.py:318-330 and 633-757 (create_other_variables and
    init_output_file) after the switches have been assigned. *)
Definition open_writer (x : selection) (save_metadata toggle_subsidence : bool) : writer :=
  let any := existsb (grd_on x) all_grds in
  let meta := save_metadata || any in
  let metas := if meta then meta_list toggle_subsidence else [] in
  mkWriter x any meta metas
    (if meta || any then Some (dkeys (var_list x), dkeys metas) else None).

(** Assignments to an existing model. model.py:656-763, 812-1015. *)
Definition writer_assign (s : switch) (b : bool) (w : writer) : result writer :=
  do x <- assign_switch s b (w_sel w);
  Ok (mkWriter x (w_any w) (w_meta w) (w_metas w) (w_file w)).

(** What one record holds: the time, figures and grids (name and attribute
    shown), and time-varying metadata. iteration_tools.py:232-324. *)
Record saved : Type := mkSaved {
  sv_time : bool; sv_figs : dict string; sv_grids : dict string; sv_meta : list string }.

(** iteration_tools.py:232-324 (save_grids_and_figs).  A variable that is not
    in the file makes save_grids (iteration_tools.py:412-440) raise; figures
    saved before are not undone.  All attributes of the selection are arrays
    of the right shape. *)
Definition save_grids_and_figs (w : writer) : result saved :=
  if w_meta w || w_any w then
    match w_file w with
    | None => Err AttributeError
    | Some (vars, metas) =>
        do g <- (if w_any w then
                   if forallb (fun k => existsb (String.eqb k) vars) (dkeys (var_list (w_sel w)))
                   then Ok (var_list (w_sel w)) else Err PlainException
                 else Ok []);
        Ok (mkSaved true (fig_list (w_sel w)) g
              (if w_meta w then map fst (filter snd (w_metas w)) else []))
    end
  else Ok (mkSaved false (fig_list (w_sel w)) [] []).

(** iteration_tools.py:395-406: file of a figure. *)
Definition figure_file (sequential : bool) (name : string) (save_iter : N) : string :=
  (name ++ "_") ++ (if sequential then zfill 5 (pystr save_iter) else "latest") ++ ".png".
