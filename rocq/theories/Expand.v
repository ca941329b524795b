(** Model of the expansion of one configuration into jobs:
    preprocessor.py:115-531 (construct_file_list and the methods it calls),
    1078-1145 (Preprocessor.__init__) and 1168-1190
    (_write_yaml_config_to_file). *)
From Coq Require Import ZArith NArith List Bool String Ascii.
From Verif Require Import Base Dict Text Config.
Import ListNotations.
Local Open Scope string_scope.

(** os.path.join(root, name) for a relative name on Linux —
    preprocessor.py:375, 467 *)
Definition ends_with_slash (s : string) : bool :=
  match get (String.length s - 1) s with
  | Some c => Ascii.eqb c "/"%char
  | None => false
  end.
(** preprocessor.py:372, 466 *)
Definition join (root name : string) : string :=
  match root with
  | "" => name
  | _ => if ends_with_slash root then root ++ name else root ++ "/" ++ name
  end.

(** preprocessor.py:374, 466 *)
Definition job_id (i : nat) : string := "job_" ++ zfill 3 (pystr (N.of_nat i)).

(** ":" in k — preprocessor.py:340, 432 *)
Fixpoint has_colon (k : string) : bool :=
  match k with
  | "" => false
  | String c k' => Ascii.eqb c ":"%char || has_colon k'
  end.

Section Expand.
  Context {F : Type}.
  Notation value := (value F).
  Notation cfg := (dict value).

  (** The part of the disk the expansion looks at: which directories exist,
      and what the loader returns for the job file of a job directory.  A
      directory is identified by the text of its path. preprocessor.py:208-230, 499-532. *)
  Record disk : Type := mkDisk { d_dirs : list string; d_jobs : dict cfg }.

  (** Path.is_dir — preprocessor.py:219, 514 *)
  Definition is_dir (p : string) (d : disk) : bool := existsb (String.eqb p) (d_dirs d).
  (** Path.mkdir, for a path whose parent exists — preprocessor.py:230, 525 *)
  Definition mkdir (p : string) (d : disk) : disk := mkDisk (p :: d_dirs d) (d_jobs d).

  (** What is left on disk, and the value or exception. preprocessor.py:115-144. *)
  Definition io (T : Type) : Type := (disk * result T)%type.
  (** preprocessor.py:115-144 *)
  Definition ibind {T U} (m : io T) (f : disk -> T -> io U) : io U :=
    match m with
    | (d, Ok t) => f d t
    | (d, Err e) => (d, Err e)
    end.

  (** ** Flags: preprocessor.py:146-181.  The verbosity is not modelled. *)
  Record flags : Type := mkFlags { f_set : bool; f_matrix : bool; f_ensemble : bool }.

  (** preprocessor.py:146-181 *)
  Definition prelim_config_parsing (c : cfg) : result flags :=
    if dmem "set" c && dmem "matrix" c then Err ValueError
    else Ok (mkFlags (dmem "set" c) (dmem "matrix" c) (dmem "ensemble" c)).

  (** ** Ensembles: preprocessor.py:232-325 *)

  (** isinstance(v, int): bool is a subclass of int. preprocessor.py:232-325. *)
  Definition as_pyint (v : value) : option Z :=
    match v with VInt z => Some z | VBool true => Some 1%Z | VBool false => Some 0%Z | _ => None end.

  (** Characters of a text as one-character texts. preprocessor.py:441-470. *)
  Fixpoint chars (s : string) : list value :=
    match s with "" => [] | String c s' => VStr (String c "") :: chars s' end.

  (** Iterating over a value. preprocessor.py:441-470. *)
  Definition as_seq (v : value) : result (list value) :=
    match v with
    | VList l => Ok l
    | VStr s => Ok (chars s)
    | VDict d => Ok (map (fun kv => VStr (fst kv)) d)
    | _ => Err TypeError
    end.

  (** [n] numbers drawn from numpy's generator, starting with the [k]-th. preprocessor.py:232-325. *)
  Definition seed_values (seeds : nat -> Z) (k n : nat) : list value :=
    map (fun i => VInt (seeds (k + i)%nat)) (seq 0 n).

  (** preprocessor.py:271-284: copies of one entry, each with its own seed. *)
  Definition copies (seeds : nat -> Z) (k n : nat) (entry : value) : result (list value) :=
    match n with
    | O => Ok []
    | _ => match entry with
           | VDict d => Ok (map (fun s => VDict (dset "seed" s d)) (seed_values seeds k n))
           | VList _ => Err TypeError
           | _ => Err AttributeError
           end
    end.

  (** preprocessor.py:269-284 *)
  Fixpoint ensemble_set (seeds : nat -> Z) (k n : nat) (entries : list value) : result (list value) :=
    match entries with
    | [] => Ok []
    | e :: es =>
        do c <- copies seeds k n e;
        do r <- ensemble_set seeds (k + n) n es;
        Ok (c ++ r)%list
    end.

  (** preprocessor.py:250-325 (_expand_ensemble), with range(n) for a
      negative n. *)
  Definition expand_ensemble (seeds : nat -> Z) (fl : flags) (c : cfg) : result (flags * cfg) :=
    match dget "ensemble" c with
    | None => Err KeyError
    | Some v =>
        let c := ddel "ensemble" c in
        match as_pyint v with
        | None => Err TypeError
        | Some z =>
            if (z =? 1)%Z then Ok (mkFlags (f_set fl) (f_matrix fl) false, c)
            else
              let n := Z.to_nat z in
              if f_set fl then
                match dget "set" c with
                | None => Err KeyError
                | Some old =>
                    do l <- as_seq old;
                    do l <- ensemble_set seeds 0 n l;
                    Ok (fl, dset "set" (VList l) (ddel "set" c))
                end
              else
                let m := match dget "matrix" c with Some m => m | None => VDict [] end in
                let c := ddel "matrix" c in
                match m with
                | VDict m =>
                    if dmem "seed" m then Err ValueError
                    else Ok (mkFlags (f_set fl) true (f_ensemble fl),
                             dset "matrix" (VDict (dset "seed" (VList (seed_values seeds 0 n)) m)) c)
                | _ => Err ValueError
                end
        end
    end.

  (** ** The root folder: preprocessor.py:208-230 *)

  (** preprocessor.py:222-223, 518-519: value [is True] *)
  Definition resuming (c : cfg) : bool :=
    match dget "resume_checkpoint" c with Some (VBool true) => true | _ => false end.

  (** preprocessor.py:208-230 *)
  Definition prepare_multijob_output (c : cfg) (d : disk) : io string :=
    match dget "out_dir" c with
    | None => (d, Err ValueError)
    | Some (VStr root) =>
        if is_dir root d then if resuming c then (d, Ok root) else (d, Err FileExistsError)
        else (mkdir root d, Ok root)
    | Some _ => (d, Err TypeError)
    end.

  (** ** Expansion *)

  (** The table of jobs_parameters.txt: header and rows —
      preprocessor.py:391-403, 484-497 *)
  Definition table : Type := (list string * list (list value))%type.

  (** preprocessor.py:368-388, 461-482: the fixed configuration with the
      job's folder and values. *)
  Definition job_config (fixed : cfg) (root : string) (i : nat) (kvs : cfg) : cfg :=
    dupdate (dset "out_dir" (VStr (join root (job_id i))) fixed) kvs.

  (** All jobs and table rows, for the given lists of settings, numbered from
      [i] — preprocessor.py:368-388, 461-482 *)
  Fixpoint job_configs (fixed : cfg) (root : string) (i : nat) (l : list cfg) : list cfg :=
    match l with
    | [] => []
    | kvs :: l' => job_config fixed root i kvs :: job_configs fixed root (S i) l'
    end.
  (** preprocessor.py:368-388, 461-482 *)
  Fixpoint table_rows (i : nat) (l : list cfg) : list (list value) :=
    match l with
    | [] => []
    | kvs :: l' => (VStr (job_id i) :: map snd kvs) :: table_rows (S i) l'
    end.

  (** preprocessor.py:333-341 *)
  Fixpoint check_set (l : list value) : result (list cfg) :=
    match l with
    | [] => Ok []
    | VDict d :: l' =>
        if existsb has_colon (dkeys d) then Err ValueError
        else do r <- check_set l'; Ok (d :: r)
    | _ => Err TypeError
    end.

  (** set(a.keys()) == set(b.keys()) — preprocessor.py:344-347 *)
  Definition same_keys (a b : cfg) : bool :=
    forallb (fun k => dmem k b) (dkeys a) && forallb (fun k => dmem k a) (dkeys b).

  (** preprocessor.py:327-403 (_expand_set) *)
  Definition expand_set (root : string) (c : cfg) : result (cfg * list cfg * table) :=
    match dget "set" c with
    | None => Err KeyError
    | Some (VList l) =>
        let fixed := ddel "set" c in
        do s <- check_set l;
        match s with
        | [] => Err IndexError
        | s0 :: s' =>
            if forallb (same_keys s0) s'
            then Ok (fixed, job_configs fixed root 0 s, ("job_id" :: dkeys s0, table_rows 0 s))
            else Err ValueError
        end
    | Some _ => Err TypeError
    end.

  (** preprocessor.py:421-439; the warning is not modelled. *)
  Definition is_list (v : value) : bool := match v with VList _ => true | _ => false end.
  (** preprocessor.py:421-439 *)
  Fixpoint check_matrix (fixed m : cfg) : result (list (string * list value)) :=
    match m with
    | [] => Ok []
    | (k, v) :: m' =>
        do vs <- as_seq v;
        if existsb is_list vs then Err ValueError
        else if has_colon k then Err ValueError
        else if dmem k fixed then Err ValueError
        else do r <- check_matrix fixed m'; Ok ((k, vs) :: r)
    end.

  (** itertools.product — preprocessor.py:447 *)
  Fixpoint product {T} (l : list (list T)) : list (list T) :=
    match l with
    | [] => [[]]
    | x :: l' => flat_map (fun v => map (cons v) (product l')) x
    end.

  (** preprocessor.py:405-497 (_expand_matrix).  np.prod of an empty list is a
      float, which is refused as a number of jobs. *)
  Definition expand_matrix (root : string) (c : cfg) : result (cfg * list cfg * table) :=
    match dget "matrix" c with
    | None => Err KeyError
    | Some (VDict m) =>
        let fixed := ddel "matrix" c in
        if dmem "out_dir" m then Err ValueError
        else
          do l <- check_matrix fixed m;
          match l with
          | [] => Err TypeError
          | _ =>
              let combs := map (combine (map fst l)) (product (map snd l)) in
              Ok (fixed, job_configs fixed root 0 combs, ("job_id" :: map fst l, table_rows 0 combs))
          end
    | Some _ => Err ValueError
    end.

  (** ** Job files *)

  (** preprocessor.py:1168-1190: the configuration is appended to the file,
      and a later entry for a key wins when the file is loaded.  [reload v] is
      what the loader makes of the text str(v). *)
  Definition append_yaml (reload : value -> value) (dir : string) (c : cfg) (d : disk) : disk :=
    let old := match dget dir (d_jobs d) with Some o => o | None => [] end in
    mkDisk (d_dirs d)
      (dset dir (dupdate old (map (fun kv => (fst kv, reload (snd kv))) c)) (d_jobs d)).

  (** preprocessor.py:504-531: one job folder and file after the other. *)
  Fixpoint write_jobs (reload : value -> value) (resume : bool) (cs : list cfg) (d : disk)
    : io (list string) :=
    match cs with
    | [] => (d, Ok [])
    | c :: cs' =>
        match dget "out_dir" c with
        | Some (VStr dir) =>
            if is_dir dir d && negb resume then (d, Err FileExistsError)
            else
              let d := if is_dir dir d then d else mkdir dir d in
              ibind (write_jobs reload resume cs' (append_yaml reload dir c d))
                (fun d fs => (d, Ok (dir :: fs)))
        | Some _ => (d, Err TypeError)
        | None => (d, Err KeyError)
        end
    end.

  (** preprocessor.py:499-531 (_write_job_configs) *)
  Definition write_job_configs (reload : value -> value) (c : cfg) (cs : list cfg) (d : disk)
    : io (list string) :=
    match cs with
    | [] => (d, Err ValueError)
    | _ => write_jobs reload (resuming c) cs d
    end.

  (** ** construct_file_list: preprocessor.py:115-144 *)

  (** The file of a job: the input file given by the user (or none), or the
      job file in a job folder. preprocessor.py:55-62, 115-144. *)
  Inductive job_file : Type := UserFile | JobFile (dir : string).

  (** config_dict, config_list, file_list and the job table. preprocessor.py:55-83. *)
  Record plan : Type := mkPlan {
    pl_config : cfg; pl_configs : list cfg; pl_files : list job_file; pl_table : option table }.

  (** preprocessor.py:115-144 *)
  Definition construct_file_list (seeds : nat -> Z) (reload : value -> value) (c : cfg) (d : disk)
    : io plan :=
    match (do fl <- prelim_config_parsing c;
           if f_ensemble fl then expand_ensemble seeds fl c else Ok (fl, c)) with
    | Err e => (d, Err e)
    | Ok (fl, c) =>
        if f_ensemble fl || f_set fl || f_matrix fl then
          ibind (prepare_multijob_output c d) (fun d root =>
            match (if f_matrix fl then expand_matrix root c else expand_set root c) with
            | Err e => (d, Err e)
            | Ok (c, cs, t) =>
                ibind (write_job_configs reload c cs d) (fun d dirs =>
                  (d, Ok (mkPlan c cs (map JobFile dirs) (Some t))))
            end)
        else (d, Ok (mkPlan c [c] [UserFile] None))
    end.

  (** preprocessor.py:1104-1145 (Preprocessor.__init__), with the contents of
      the input file if one is given.  An empty file name is not modelled. *)
  Definition merged (file : option cfg) (args : cfg) : cfg :=
    dupdate (dupdate [] (match file with Some f => f | None => [] end)) args.
  (** preprocessor.py:1101-1145 *)
  Definition preprocessor (seeds : nat -> Z) (reload : value -> value) (file : option cfg) (args : cfg)
      (d : disk) : io plan :=
    match file, args with
    | None, [] => (d, Err ValueError)
    | _, _ => construct_file_list seeds reload (merged file args) d
    end.
End Expand.
Arguments disk F : clear implicits.
Arguments plan F : clear implicits.
Arguments mkDisk {F}. Arguments d_dirs {F}. Arguments d_jobs {F}.
Arguments mkPlan {F}. Arguments pl_config {F}. Arguments pl_configs {F}. Arguments pl_files {F}.
Arguments pl_table {F}.
