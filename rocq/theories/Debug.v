(** Model of /repo/pyDeltaRCM/debug_tools.py: which attributes can be shown
    and where points and lines are drawn.  Axes, colours, markers and the
    optional call of plt.show are not modelled. *)
From Coq Require Import ZArith List Bool.
From Verif Require Import Base Shared Water.
Import ListNotations.
Local Open Scope Z_scope.

(** A value found under an attribute name (debug_tools.py:40-52). *)
Inductive attr_value : Type :=
| Missing                (** no such attribute *)
| NotArray               (** anything but an ndarray *)
| Array (ndim : nat)     (** an ndarray with that many axes *).

(** debug_tools.py:40-52 (_get_attribute): the number of axes stands for the
    array. *)
Definition get_attribute (v : attr_value) : result nat :=
  match v with
  | Missing => Err AttributeError
  | NotArray => Err TypeError
  | Array n => if negb (Nat.eqb n 2) then Err ValueError else Ok n
  end.

(** debug_tools.py:54-84 (show_attribute); [None] is a name that is not a
    string. *)
Definition show_attribute (name : option attr_value) : result nat :=
  match name with
  | None => Err TypeError
  | Some v => get_attribute v
  end.

(** Integer arrays with one, two, or more axes. debug_tools.py:54-122. *)
Inductive array : Type :=
| Arr1 (l : list Z)
| Arr2 (rows : list (list Z))
| ArrN.

(** A single index: a Python int, a tuple of ints or an array. debug_tools.py:54-122. *)
Inductive index : Type :=
| Flat (n : Z)
| Tup (l : list Z)
| Arr (a : array).

(** The argument of show_ind and show_line: one index or a list of them. debug_tools.py:54-122. *)
Inductive indices : Type :=
| One (x : index)
| Many (l : list index).

(** A drawn point: horizontal and vertical coordinate. debug_tools.py:54-84. *)
Definition point : Type := (Z * Z)%type.

(** debug_tools.py:276-316 (plot_ind).  An array with two axes as a single
    index cannot arise from [show_ind] below ([elements]). *)
Definition plot_ind (shape : Z * Z) (x : index) : result point :=
  match x with
  | Tup [a; b] => Ok (b, a)
  | Tup _ => Err ValueError
  | Flat n => do (i, j) <- custom_unravel n shape; Ok (j, i)
  | Arr (Arr1 (n :: _)) => do (i, j) <- custom_unravel n shape; Ok (j, i)
  | Arr _ => Err IndexError
  end.

(** Iterating over an array yields its entries or its rows (debug_tools.py:119).  Entries are
    numpy integers, which are neither tuples nor arrays.  Arrays with more
    than two axes are not modelled (no elements here). *)
Definition elements (a : array) : list index :=
  match a with
  | Arr1 l => map Flat l
  | Arr2 rows => map (fun r => Arr (Arr1 r)) rows
  | ArrN => []
  end.

(** What a call draws, in order, and how it ends. debug_tools.py:54-122. *)
Fixpoint each {X Y} (f : X -> result Y) (l : list X) : list Y * result unit :=
  match l with
  | [] => ([], Ok tt)
  | x :: l' =>
      match f x with
      | Ok y => let (ys, r) := each f l' in (y :: ys, r)
      | Err e => ([], Err e)
      end
  end.

(** debug_tools.py:86-122 (show_ind) *)
Definition show_ind (shape : Z * Z) (ind : indices) : list point * result unit :=
  match ind with
  | Many l => each (plot_ind shape) l
  | One (Arr a) => each (plot_ind shape) (elements a)
  | One x => each (plot_ind shape) [x]
  end.

(** A drawn line: its points in order; [None] is a NaN, which interrupts the
    line. debug_tools.py:86-122. *)
Definition line : Type := list (option point).

(** debug_tools.py:357-364, 374-383: one point of a line of flat indices. *)
Definition line_point (shape : Z * Z) (nozeros : bool) (n : Z) : result (option point) :=
  if (n =? 0) && nozeros then Ok None
  else do (i, j) <- custom_unravel n shape; Ok (Some (j, i)).

(** debug_tools.py:319-390 (plot_line) of an array with one axis, with or
    without multiline. *)
Definition plot_line1 (shape : Z * Z) (nozeros : bool) (l : list Z) : result line :=
  mapM (line_point shape nozeros) l.

(** debug_tools.py:366-367, 385: np.fliplr of an array of rows, then columns 1
    and 0. *)
Definition plot_line2 (rows : list (list Z)) : result line :=
  mapM (fun r => match rev r with
                 | v :: h :: _ => Ok (Some (h, v))
                 | _ => Err IndexError
                 end) rows.

(** ndarray.flatten — debug_tools.py:178, 205 *)
Definition flatten (a : array) : list Z :=
  match a with Arr1 l => l | Arr2 rows => concat rows | ArrN => [] end.

(** ind[:, i] — debug_tools.py:191; the array has [shape[1]] columns in every row. *)
Definition column (rows : list (list Z)) (i : nat) : list Z := map (fun r => nth i r 0) rows.
(** ind.shape[1] — debug_tools.py:189 *)
Definition columns (rows : list (list Z)) : nat := match rows with [] => O | r :: _ => length r end.

(** debug_tools.py:175-180: the elements of a list; only arrays have flatten. *)
Definition plot_element (shape : Z * Z) (nozeros : bool) (x : index) : result line :=
  match x with
  | Arr a => plot_line1 shape nozeros (flatten a)
  | _ => Err AttributeError
  end.

(** debug_tools.py:124-211 (show_line): the lines drawn and the lines
    returned.  The list branch keeps only its last line. *)
Definition show_line (shape : Z * Z) (multiline nozeros : bool) (ind : indices)
  : list line * result (list line) :=
  match ind with
  | Many l =>
      let (drawn, r) := each (plot_element shape nozeros) l in
      (drawn, match r with
              | Err e => Err e
              | Ok _ => match rev drawn with [] => Err UnboundLocalError | x :: _ => Ok [x] end
              end)
  | One (Arr ArrN) => ([], Err NotImplementedError)
  | One (Arr (Arr2 rows)) =>
      if multiline then
        let (drawn, r) := each (plot_line1 shape nozeros) (map (column rows) (seq 0 (columns rows))) in
        (drawn, do _ <- r; Ok drawn)
      else
        let (drawn, r) := each plot_line2 [rows] in (drawn, do _ <- r; Ok drawn)
  | One (Arr (Arr1 l)) =>
      let (drawn, r) := each (plot_line1 shape nozeros) [l] in (drawn, do _ <- r; Ok drawn)
  | One _ => ([], Err NotImplementedError)
  end.
