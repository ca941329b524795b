(** Model of the contents of the output file: iteration_tools.py:232-324 and
    412-440 (writing a record), init_tools.py:781-837 (time-varying metadata)
    and 912-993 (continuing an existing file).  Units, coordinates and the
    metadata that do not vary in time are not modelled here. *)
From Coq Require Import ZArith List Bool String.
From Verif Require Import Base Dict Params State Iter Inputs Init Switches.
Import ListNotations.
Local Open Scope string_scope.

Section Records.
  Context {F : Type} {A : Arith F} {S : Type}.
  (** A value read back from a variable of type f4 (model.py:812-1015,
      init_tools.py:678-680, 812-837). *)
  Context (store : F -> F).

  (** getattr(self, attr) for the attributes named in model.py:812-1015 —
      iteration_tools.py:304-306 *)
  Definition attribute (attr : string) (st : state F S) : result (grid F) :=
    if String.eqb attr "eta" then Ok (s_eta st)
    else if String.eqb attr "stage" then Ok (s_stage st)
    else if String.eqb attr "depth" then Ok (s_depth st)
    else if String.eqb attr "qw" then Ok (s_qw st)
    else if String.eqb attr "qx" then Ok (s_qx st)
    else if String.eqb attr "qy" then Ok (s_qy st)
    else if String.eqb attr "uw" then Ok (s_uw st)
    else if String.eqb attr "ux" then Ok (s_ux st)
    else if String.eqb attr "uy" then Ok (s_uy st)
    else if String.eqb attr "qs" then Ok (s_qs st)
    else if String.eqb attr "sand_frac" then Ok (s_sand_frac st)
    else Err AttributeError.

  (** getattr(self, name) for the time-varying metadata —
      iteration_tools.py:312-316, init_tools.py:812-837 *)
  Definition meta_attribute (name : string) (inp : inputs F) (P : params F) (st : state F S) : result F :=
    if String.eqb name "H_SL" then Ok (s_H_SL st)
    else if String.eqb name "f_bedload" then Ok (p_f_bedload P)
    else if String.eqb name "C0_percent" then Ok (i_C0_percent inp)
    else if String.eqb name "u0" then Ok (p_u0 P)
    else Err AttributeError.

  (** One index of the unlimited dimension: the time, the grids and the
      time-varying metadata by name. iteration_tools.py:290-324, 412-440. *)
  Record entry : Type := mkEntry { e_time : F; e_grids : dict (grid F); e_meta : dict F }.

  (** The output file along its unlimited dimension; None is an index never
      written (fill values). init_tools.py:633-757. *)
  Definition ncfile : Type := list (option entry).

  (** Assignment at an index of an unlimited dimension: the dimension grows as
      needed — iteration_tools.py:257, 435 *)
  Fixpoint write_at (k : nat) (e : entry) (f : ncfile) : ncfile :=
    match k, f with
    | O, [] => [Some e]
    | O, _ :: f' => Some e :: f'
    | Datatypes.S k', [] => None :: write_at k' e []
    | Datatypes.S k', x :: f' => x :: write_at k' e f'
    end.

  (** iteration_tools.py:299-306 *)
  Fixpoint grids_of (l : dict string) (st : state F S) : result (dict (grid F)) :=
    match l with
    | [] => Ok []
    | (name, attr) :: l' =>
        do g <- attribute attr st;
        do r <- grids_of l' st;
        Ok ((name, fun i j => store (g i j)) :: r)
    end.
  (** iteration_tools.py:309-316 *)
  Fixpoint metas_of (l : list string) (inp : inputs F) (P : params F) (st : state F S) : result (dict F) :=
    match l with
    | [] => Ok []
    | name :: l' =>
        do x <- meta_attribute name inp P st;
        do r <- metas_of l' inp P st;
        Ok ((name, store x) :: r)
    end.

  (** iteration_tools.py:232-324 (save_grids_and_figs), the part that goes
      into the file. *)
  Definition write_record (w : writer) (inp : inputs F) (P : params F) (k : Z) (t : F) (st : state F S)
      (f : ncfile) : result ncfile :=
    do sv <- save_grids_and_figs w;
    if sv_time sv then
      do g <- grids_of (sv_grids sv) st;
      do m <- metas_of (sv_meta sv) inp P st;
      Ok (write_at (Z.to_nat k) (mkEntry (store t) g m) f)
    else Ok f.

  (** The records among what a run writes, put into the file one after the
      other. iteration_tools.py:232-324. *)
  Fixpoint write_all (w : writer) (inp : inputs F) (P : params F) (o : list (output F S)) (f : ncfile)
    : result ncfile :=
    match o with
    | [] => Ok f
    | Record_ k t st :: o' => do f <- write_record w inp P k t st f; write_all w inp P o' f
    | Checkpoint _ :: o' => write_all w inp P o' f
    end.

  (** model.py:134-143 and 184-215: a new file, the initial record and n
      updates. *)
  Definition run_file {N} {G : Rng F S} {GN : NpRng N} (w : writer) (c : inputs F) (nb : S) (np : N) (n : nat)
    : result ncfile :=
    do r <- new_model (G:=G) c nb np;
    let '(m, o, _) := r in
    do (st, o') <- updates (m_P m) n (m_st m);
    write_all w (m_in m) (m_P m) (o ++ o')%list [].
End Records.
Arguments entry F : clear implicits.
Arguments ncfile F : clear implicits.
Arguments mkEntry {F}. Arguments e_time {F}. Arguments e_grids {F}. Arguments e_meta {F}.
