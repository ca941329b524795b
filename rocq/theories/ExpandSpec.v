(** What expanding one configuration into several jobs is meant to do. *)
From Coq Require Import ZArith List Bool String Ascii.
From Verif Require Import Base Dict Config Expand.
Import ListNotations.
Local Open Scope string_scope.

Section ExpandSpec.
  Context {F : Type}.
  Notation value := (value F).
  Notation cfg := (dict value).

  (** ** Vocabulary *)

  (** No key is given twice. *)
  Definition well_formed (c : cfg) : Prop := NoDup (dkeys c).

  (** Two configurations agree on a key. *)
  Definition agree (k : string) (a b : cfg) : Prop := dget k a = dget k b.

  (** A matrix written as lists of values. *)
  Definition matrix : Type := list (string * list value).

  (** One position in each list of a matrix. *)
  Definition positions (m : matrix) (p : list nat) : Prop :=
    Forall2 (fun kv n => (n < List.length (snd kv))%nat) m p.

  (** A configuration has, for every key of the matrix, the value at the
      chosen position. *)
  Definition chooses (m : matrix) (p : list nat) (c : cfg) : Prop :=
    forall j k vs n, nth_error m j = Some (k, vs) -> nth_error p j = Some n ->
      exists v, nth_error vs n = Some v /\ dget k c = Some v.

  (** The number of combinations. *)
  Fixpoint combinations (m : matrix) : nat :=
    match m with [] => 1 | (_, vs) :: m' => List.length vs * combinations m' end.

  (** [choice] numbers the combinations of [m]: each appears exactly once
      among the first [N]. *)
  Definition numbering (m : matrix) (N : nat) (choice : nat -> list nat) : Prop :=
    N = combinations m /\
    (forall i, (i < N)%nat -> positions m (choice i)) /\
    (forall p, positions m p -> exists! i, (i < N)%nat /\ choice i = p).

  (** Output folders: the root's, numbered, all different. *)
  Definition numbered_folders (root : string) (jobs : list cfg) : Prop :=
    (forall i c, nth_error jobs i = Some c ->
       dget "out_dir" c = Some (VStr (join root (job_id i)))) /\
    (forall i j, join root (job_id i) = join root (job_id j) -> i = j).

  (** The jobs of matrix [m] over the fixed configuration. *)
  Definition cartesian (fixed : cfg) (root : string) (m : matrix) (jobs : list cfg) : Prop :=
    exists choice,
      numbering m (List.length jobs) choice /\
      (forall i c, nth_error jobs i = Some c -> chooses m (choice i) c) /\
      (forall i c k, nth_error jobs i = Some c -> ~ In k (map fst m) -> k <> "out_dir" ->
         agree k c fixed) /\
      numbered_folders root jobs.

  (** The same, with [n] copies of every combination that differ in seed:
      job [i * n + j] is combination [i] with seed [j]. *)
  Definition cartesian_copies (n : nat) (seeds : nat -> Z) (fixed : cfg) (root : string)
      (m : matrix) (jobs : list cfg) : Prop :=
    List.length jobs = (combinations m * n)%nat /\
    exists choice,
      numbering m (combinations m) choice /\
      (forall i j c, (j < n)%nat -> nth_error jobs (i * n + j) = Some c ->
         chooses m (choice i) c /\ dget "seed" c = Some (VInt (seeds j))) /\
      (forall i c k, nth_error jobs i = Some c -> ~ In k (map fst m) -> k <> "out_dir" -> k <> "seed" ->
         agree k c fixed) /\
      numbered_folders root jobs.

  (** ** Acceptance of a matrix *)

  (** The values of a key: a list with at least one entry and no list inside.
      A text stands for its characters and a mapping for its keys. *)
  Inductive value_list : value -> list value -> Prop :=
  | vl_list l : value_list (VList l) l
  | vl_text s l : l = map (fun c => VStr (String c "")) (list_ascii_of_string s) ->
      value_list (VStr s) l
  | vl_mapping d : value_list (VDict d) (map (fun kv => VStr (fst kv)) d).

  Definition is_list_value (v : value) : Prop := exists l, v = VList l.
  Definition colon_in (k : string) : Prop := In ":"%char (list_ascii_of_string k).

  (** The matrix of the configuration is [m]. *)
  Definition matrix_reads (d : cfg) (m : matrix) : Prop :=
    Forall2 (fun kv km => fst kv = fst km /\ value_list (snd kv) (snd km)) d m.

  Record acceptable (fixed : cfg) (m : matrix) : Prop := {
    ac_some : m <> [];
    ac_values : forall k vs, In (k, vs) m -> vs <> [];
    ac_flat : forall k vs v, In (k, vs) m -> In v vs -> ~ is_list_value v;
    ac_keys : forall k, In k (map fst m) -> ~ colon_in k;
    ac_fixed : forall k, In k (map fst m) -> ~ In k (dkeys fixed);
    ac_folder : ~ In "out_dir" (map fst m)
  }.

  (** ** Sets *)

  (** Job [i] of a set has the values of entry [i], and otherwise the fixed
      ones; the folder is the job's own unless the entry gives one. *)
  Definition one_per_entry (fixed : cfg) (root : string) (entries jobs : list cfg) : Prop :=
    List.length jobs = List.length entries /\
    forall i e c, nth_error entries i = Some e -> nth_error jobs i = Some c ->
      (forall k v, dget k e = Some v -> dget k c = Some v) /\
      (forall k, ~ In k (dkeys e) -> k <> "out_dir" -> agree k c fixed) /\
      (~ In "out_dir" (dkeys e) -> dget "out_dir" c = Some (VStr (join root (job_id i)))).

  (** Job [i * n + j] is entry [i] with a seed of its own; a seed in the entry
      is replaced. *)
  Definition copies_per_entry (n : nat) (seeds : nat -> Z) (fixed : cfg) (root : string)
      (entries jobs : list cfg) : Prop :=
    List.length jobs = (List.length entries * n)%nat /\
    forall i j e c, (j < n)%nat -> nth_error entries i = Some e -> nth_error jobs (i * n + j) = Some c ->
      dget "seed" c = Some (VInt (seeds (i * n + j)%nat)) /\
      (forall k v, k <> "seed" -> dget k e = Some v -> dget k c = Some v) /\
      (forall k, ~ In k (dkeys e) -> k <> "out_dir" -> k <> "seed" -> agree k c fixed) /\
      (~ In "out_dir" (dkeys e) -> dget "out_dir" c = Some (VStr (join root (job_id (i * n + j))))).

  (** The entries of a set can be used together. *)
  Record usable (entries : list cfg) : Prop := {
    us_some : entries <> [];
    us_colon : forall e k, In e entries -> In k (dkeys e) -> ~ colon_in k;
    us_keys : forall e e' k, In e entries -> In e' entries -> In k (dkeys e) -> In k (dkeys e')
  }.

  (** ** Disk *)

  (** Nothing that was on disk is removed or changed. *)
  Definition kept (d d' : disk F) : Prop :=
    (forall p, In p (d_dirs d) -> In p (d_dirs d')) /\
    (forall p c, dget p (d_jobs d) = Some c -> dget p (d_jobs d') = Some c).

  (** Job files lie in existing directories. *)
  Definition disk_ok (d : disk F) : Prop :=
    forall p, In p (dkeys (d_jobs d)) -> In p (d_dirs d).

  (** The root folder and its numbered job folders do not exist. *)
  Definition fresh (root : string) (d : disk F) : Prop :=
    ~ In root (d_dirs d) /\ forall i, ~ In (join root (job_id i)) (d_dirs d).

  (** The configuration asks for several jobs. *)
  Definition multi_job (c : cfg) : Prop :=
    In "set" (dkeys c) \/ In "matrix" (dkeys c) \/
    (exists v, dget "ensemble" c = Some v /\ v <> VInt 1 /\ v <> VBool true).
  Definition asks_resume (c : cfg) : Prop := dget "resume_checkpoint" c = Some (VBool true).
End ExpandSpec.
