(** Properties of multi-job expansion: C46, C47, C49 (merging) and the
    multi-job part of C53. *)
From Coq Require Import ZArith List Bool String.
From Verif Require Import Base Dict Config Expand ExpandSpec ExpandProofs ExpandRuns ExpandCor.
Import ListNotations.
Local Open Scope string_scope.

(** A configuration with a 3 x 2 matrix. *)
Definition ex_matrix : dict (value Z) :=
  [("out_dir", VStr "runs"); ("timesteps", VInt 10); ("itermax", VInt 1);
   ("matrix", VDict [("f_bedload", VList [VFloat 1; VFloat 5; VFloat 9]%Z); ("N0_meters", VList [VInt 100; VInt 200])])].
Definition empty_disk : disk Z := mkDisk [] [].
Definition some_seeds (n : nat) : Z := Z.of_nat n * 7 + 3.
Definition keep_value (v : value Z) : value Z := v.

Definition plan_of (r : disk Z * result (plan Z)) : option (plan Z) :=
  match snd r with Ok p => Some p | Err _ => None end.
Definition shown (k : string) (r : disk Z * result (plan Z)) : option (list (option (value Z))) :=
  option_map (fun p => map (dget k) (pl_configs p)) (plan_of r).

(** ** C46: matrix expansion *)

(** The jobs are exactly the combinations, each once; every other parameter is
    carried over; folders are numbered and distinct. *)
Theorem C46_matrix_jobs :
  forall F seeds reload (c md : dict (value F)) m root d d' p,
  well_formed c -> well_formed md ->
  dget "matrix" c = Some (VDict md) -> matrix_reads md m -> ~ In "ensemble" (dkeys c) ->
  dget "out_dir" c = Some (VStr root) ->
  construct_file_list seeds reload c d = (d', Ok p) ->
  cartesian (ddel "matrix" c) root m (pl_configs p).
Proof. exact @matrix_jobs. Qed.
Print Assumptions C46_matrix_jobs.

Example C46_six_jobs :
  let r := construct_file_list some_seeds keep_value ex_matrix empty_disk in
  shown "f_bedload" r = Some (map Some [VFloat 1; VFloat 1; VFloat 5; VFloat 5; VFloat 9; VFloat 9]%Z) /\
  shown "N0_meters" r = Some (map Some [VInt 100; VInt 200; VInt 100; VInt 200; VInt 100; VInt 200]%Z) /\
  shown "itermax" r = Some (repeat (Some (VInt 1)) 6) /\
  shown "out_dir" r = Some (map Some [VStr "runs/job_000"; VStr "runs/job_001"; VStr "runs/job_002";
                                      VStr "runs/job_003"; VStr "runs/job_004"; VStr "runs/job_005"]).
Proof. vm_compute. repeat split. Qed.

(** A matrix is accepted exactly when it is a non-empty mapping from keys to
    non-empty lists of values that are not lists, and no key contains a colon,
    is fixed as well, or is the output folder. *)
Theorem C46_accepted_iff :
  forall F seeds reload (c : dict (value F)) v root d,
  well_formed c -> (forall md, v = VDict md -> well_formed md) ->
  dget "matrix" c = Some v -> ~ In "set" (dkeys c) -> ~ In "ensemble" (dkeys c) ->
  dget "out_dir" c = Some (VStr root) -> fresh root d ->
  ((exists md m, v = VDict md /\ matrix_reads md m /\ acceptable (ddel "matrix" c) m) ->
     exists d' p, construct_file_list seeds reload c d = (d', Ok p)) /\
  (~ (exists md m, v = VDict md /\ matrix_reads md m /\ acceptable (ddel "matrix" c) m) ->
     exists d' e, construct_file_list seeds reload c d = (d', Err e) /\ (e = ValueError \/ e = TypeError)).
Proof. exact @matrix_accepted. Qed.
Print Assumptions C46_accepted_iff.

Example C46_refusals :
  let r m := snd (construct_file_list some_seeds keep_value
                    [("out_dir", VStr "runs"); ("itermax", VInt 1); ("matrix", m)] empty_disk) in
  r (VDict [("out_dir", VList [VStr "a"; VStr "b"])]) = Err ValueError /\
  r (VDict [("itermax", VList [VInt 1; VInt 2])]) = Err ValueError /\
  r (VDict [("a:b", VList [VInt 1; VInt 2])]) = Err ValueError /\
  r (VDict [("h0", VList [VList [VInt 1]; VInt 2])]) = Err ValueError /\
  r (VDict [("h0", VList [])]) = Err ValueError /\
  r (VDict [("h0", VInt 3)]) = Err TypeError /\
  r (VDict []) = Err TypeError /\
  r (VList []) = Err ValueError.
Proof. vm_compute. repeat split. Qed.

(** Every job has its own new folder, and loading the job file gives the job's
    configuration, up to the change made by writing a value as text. *)
Theorem C46_job_files :
  forall F seeds reload (c : dict (value F)) d d' p,
  well_formed c -> disk_ok d -> ~ asks_resume c -> multi_job c ->
  construct_file_list seeds reload c d = (d', Ok p) ->
  exists dirs,
    pl_files p = map JobFile dirs /\ NoDup dirs /\ (forall f, In f dirs -> ~ In f (d_dirs d)) /\
    List.length dirs = List.length (pl_configs p) /\
    forall i f j, nth_error dirs i = Some f -> nth_error (pl_configs p) i = Some j ->
      dget "out_dir" j = Some (VStr f) /\
      exists file, dget f (d_jobs d') = Some file /\
        forall k, dget k file = option_map reload (dget k j).
Proof. exact @job_files. Qed.
Print Assumptions C46_job_files.

Example C46_job_files_case :
  well_formed ex_matrix /\ disk_ok empty_disk /\ ~ asks_resume ex_matrix /\ multi_job ex_matrix.
Proof.
  repeat split.
  - unfold well_formed. cbn. repeat constructor; cbn; intuition discriminate.
  - intros p [].
  - discriminate.
  - right. left. cbn. auto.
Qed.

(** The table written beside the jobs lists every job's own values under the
    right keys. *)
Theorem C46_table :
  forall F seeds reload (c md : dict (value F)) d d' p,
  well_formed md -> dget "matrix" c = Some (VDict md) -> ~ In "ensemble" (dkeys c) ->
  construct_file_list seeds reload c d = (d', Ok p) ->
  exists header rows, pl_table p = Some ("job_id" :: header, rows) /\ header = dkeys md /\
    List.length rows = List.length (pl_configs p) /\
    forall i row j, nth_error rows i = Some row -> nth_error (pl_configs p) i = Some j ->
      exists vals, row = VStr (job_id i) :: vals /\ List.length vals = List.length header /\
      forall n k v, nth_error header n = Some k -> nth_error vals n = Some v -> dget k j = Some v.
Proof. exact @matrix_table. Qed.
Print Assumptions C46_table.

Example C46_table_case :
  option_map (fun t => nth_error (snd t) 3)
    (match plan_of (construct_file_list some_seeds keep_value ex_matrix empty_disk) with
     | Some p => pl_table p | None => None end)
  = Some (Some [VStr "job_003"; VFloat 5; VInt 200])%Z.
Proof. vm_compute. reflexivity. Qed.

(** ** C47: sets and ensembles *)

Theorem C47_set_jobs :
  forall F seeds reload (c : dict (value F)) s root d d' p,
  (forall e, In e s -> well_formed e) ->
  dget "set" c = Some (VList (map VDict s)) -> ~ In "ensemble" (dkeys c) ->
  dget "out_dir" c = Some (VStr root) ->
  construct_file_list seeds reload c d = (d', Ok p) ->
  one_per_entry (ddel "set" c) root s (pl_configs p).
Proof. exact @set_jobs. Qed.
Print Assumptions C47_set_jobs.

Definition ex_set (more : dict (value Z)) : dict (value Z) :=
  ([("out_dir", VStr "runs"); ("h0", VInt 5);
    ("set", VList (map VDict [[("h0", VInt 2); ("u0", VInt 1)]; [("u0", VInt 4); ("h0", VInt 3)]]))] ++ more)%list.

Example C47_two_jobs :
  let r := construct_file_list some_seeds keep_value (ex_set []) empty_disk in
  shown "h0" r = Some [Some (VInt 2); Some (VInt 3)] /\ shown "u0" r = Some [Some (VInt 1); Some (VInt 4)].
Proof. vm_compute. repeat split. Qed.

(** A set is accepted when its entries are mappings with the same keys and no
    colon in a key; otherwise it is refused. *)
Theorem C47_set_accepted :
  forall F seeds reload (c : dict (value F)) v root d,
  dget "set" c = Some v -> ~ In "matrix" (dkeys c) -> ~ In "ensemble" (dkeys c) ->
  dget "out_dir" c = Some (VStr root) -> fresh root d ->
  ((exists s, v = VList (map VDict s) /\ usable s /\
      forall e, In e s -> well_formed e /\ ~ In "out_dir" (dkeys e)) ->
     exists d' p, construct_file_list seeds reload c d = (d', Ok p)) /\
  (~ (exists s, v = VList (map VDict s) /\ usable s) ->
     exists d' e, construct_file_list seeds reload c d = (d', Err e)).
Proof. exact @set_accepted. Qed.
Print Assumptions C47_set_accepted.

(** The table beside the jobs of a set can show values under the wrong keys:
    rows follow the order of each entry, the header that of the first. *)
Theorem C47_set_table_refuted :
  exists p d' row, construct_file_list some_seeds keep_value (ex_set []) empty_disk = (d', Ok p) /\
    pl_table p = Some (["job_id"; "h0"; "u0"], [[VStr "job_000"; VInt 2; VInt 1]; row]) /\
    row = [VStr "job_001"; VInt 4; VInt 3] /\
    option_map (dget "h0") (nth_error (pl_configs p) 1) = Some (Some (VInt 3)).
Proof. vm_compute. do 3 eexists. repeat split. Qed.
Print Assumptions C47_set_table_refuted.

Theorem C47_ensemble_of_set :
  forall F seeds reload (c : dict (value F)) n s root d d' p,
  (forall e, In e s -> well_formed e) ->
  dget "ensemble" c = Some (VInt (Z.of_nat n)) -> n <> 1%nat ->
  dget "set" c = Some (VList (map VDict s)) ->
  dget "out_dir" c = Some (VStr root) ->
  construct_file_list seeds reload c d = (d', Ok p) ->
  copies_per_entry n seeds (ddel "set" (ddel "ensemble" c)) root s (pl_configs p).
Proof. exact @ensemble_of_set. Qed.
Print Assumptions C47_ensemble_of_set.

Example C47_ensemble_of_set_case :
  let r := construct_file_list some_seeds keep_value (ex_set [("ensemble", VInt 3)]) empty_disk in
  shown "h0" r = Some (map (fun z => Some (VInt z)) [2; 2; 2; 3; 3; 3]%Z) /\
  shown "seed" r = Some (map (fun z => Some (VInt z)) [3; 10; 17; 24; 31; 38]%Z).
Proof. vm_compute. repeat split. Qed.

Theorem C47_ensemble_of_matrix :
  forall F seeds reload (c md : dict (value F)) m n root d d' p,
  well_formed md -> ~ In "set" (dkeys c) ->
  dget "ensemble" c = Some (VInt (Z.of_nat n)) -> n <> 1%nat ->
  (dget "matrix" c = Some (VDict md) \/ ~ In "matrix" (dkeys c) /\ md = []) -> matrix_reads md m ->
  dget "out_dir" c = Some (VStr root) ->
  construct_file_list seeds reload c d = (d', Ok p) ->
  cartesian_copies n seeds (ddel "matrix" (ddel "ensemble" c)) root m (pl_configs p).
Proof. exact @ensemble_of_matrix. Qed.
Print Assumptions C47_ensemble_of_matrix.

Example C47_ensemble_of_matrix_case :
  let r := construct_file_list some_seeds keep_value (ex_matrix ++ [("ensemble", VInt 2)])%list empty_disk in
  shown "N0_meters" r = Some (map (fun z => Some (VInt z)) [100; 100; 200; 200; 100; 100; 200; 200; 100; 100; 200; 200]%Z) /\
  shown "seed" r = Some (map (fun z => Some (VInt z)) [3; 10; 3; 10; 3; 10; 3; 10; 3; 10; 3; 10]%Z) /\
  shown "seed" (construct_file_list some_seeds keep_value [("out_dir", VStr "runs"); ("ensemble", VInt 2)] empty_disk)
    = Some [Some (VInt 3); Some (VInt 10)].
Proof. vm_compute. repeat split. Qed.

(** An ensemble of one changes nothing. *)
Theorem C47_ensemble_of_one :
  forall F seeds reload (c : dict (value F)) v d,
  dget "ensemble" c = Some v -> v = VInt 1 \/ v = VBool true ->
  construct_file_list seeds reload c d = construct_file_list seeds reload (ddel "ensemble" c) d.
Proof. exact @ensemble_of_one. Qed.
Print Assumptions C47_ensemble_of_one.

(** An ensemble of no or a negative number of members, or one that is not an
    integer, is refused; so is an ensemble when the seed is fixed. *)
Theorem C47_ensemble_refused :
  forall F seeds reload (c : dict (value F)) v d,
  dget "ensemble" c = Some v ->
  (forall z, v = VInt z -> (z <= 0)%Z) -> v <> VBool true ->
  exists d' e, construct_file_list seeds reload c d = (d', Err e).
Proof. exact @ensemble_refused. Qed.
Print Assumptions C47_ensemble_refused.
Theorem C47_fixed_seed_refused :
  forall F seeds reload (c : dict (value F)) z d,
  dget "ensemble" c = Some (VInt z) -> z <> 1%Z -> ~ In "set" (dkeys c) -> In "seed" (dkeys c) ->
  exists d' e, construct_file_list seeds reload c d = (d', Err e).
Proof. exact @ensemble_fixed_seed. Qed.
Print Assumptions C47_fixed_seed_refused.
Theorem C47_set_and_matrix_refused :
  forall F seeds reload (c : dict (value F)) d,
  In "set" (dkeys c) -> In "matrix" (dkeys c) ->
  construct_file_list seeds reload c d = (d, Err ValueError).
Proof. exact @set_with_matrix. Qed.
Print Assumptions C47_set_and_matrix_refused.

Example C47_refusals :
  let r l := snd (construct_file_list some_seeds keep_value (("out_dir", VStr "runs") :: l) empty_disk) in
  r [("ensemble", VInt 0)] = Err ValueError /\ r [("ensemble", VInt (-2))] = Err ValueError /\
  r [("ensemble", VStr "3")] = Err TypeError /\ r [("ensemble", VInt 2); ("seed", VInt 5)] = Err ValueError /\
  r [("set", VList []); ("matrix", VDict [])] = Err ValueError /\ r [("set", VList [])] = Err IndexError.
Proof. vm_compute. repeat split. Qed.

(** When resuming, two entries of a set that name the same folder share it,
    and the job file of the folder holds the values of the second. *)
Theorem C47_shared_folder_when_resuming :
  exists p d', construct_file_list some_seeds keep_value
      [("out_dir", VStr "runs"); ("resume_checkpoint", VBool true);
       ("set", VList (map VDict [[("out_dir", VStr "here"); ("h0", VInt 2)]; [("out_dir", VStr "here"); ("h0", VInt 3)]]))]
      empty_disk = (d', Ok p) /\
    pl_files p = [JobFile "here"; JobFile "here"] /\
    option_map (dget "h0") (dget "here" (d_jobs d')) = Some (Some (VInt 3)).
Proof. vm_compute. do 2 eexists. repeat split. Qed.
Print Assumptions C47_shared_folder_when_resuming.

(** ** C49: arguments over the file *)

Theorem C49_arguments_over_file :
  forall F (file : option (dict (value F))) args k,
  (forall f, file = Some f -> well_formed f) -> well_formed args ->
  dget k (merged file args) =
  match dget k args with
  | Some v => Some v
  | None => match file with Some f => dget k f | None => None end
  end.
Proof. exact @merged_get. Qed.
Print Assumptions C49_arguments_over_file.

(** Without a file and without arguments nothing is prepared or written; with
    either, the jobs are those of the merged configuration. *)
Theorem C49_something_must_be_given :
  forall F seeds reload (file : option (dict (value F))) args d,
  (file = None /\ args = [] -> preprocessor seeds reload file args d = (d, Err ValueError)) /\
  (file <> None \/ args <> [] -> preprocessor seeds reload file args d = construct_file_list seeds reload (merged file args) d).
Proof.
  intros. split; [intros [-> ->]; reflexivity|]. intros H. destruct file as [f|]; [reflexivity|].
  destruct args as [|a args]; [|reflexivity]. destruct H as [H|H]; contradiction.
Qed.
Print Assumptions C49_something_must_be_given.

Example C49_nothing_case :
  preprocessor some_seeds keep_value None [] empty_disk = (empty_disk, Err ValueError) /\
  snd (preprocessor some_seeds keep_value None ex_matrix empty_disk) <> Err ValueError.
Proof. split; [reflexivity|]. vm_compute. discriminate. Qed.
Example C49_case :
  let m := merged (Some [("h0", VInt 5); ("u0", VInt 1)]) [("h0", VInt 7); ("timesteps", VInt 3)] in
  dget "h0" m = Some (VInt 7 : value Z) /\ dget "u0" m = Some (VInt 1) /\ dget "timesteps" m = Some (VInt 3).
Proof. vm_compute. repeat split. Qed.

(** ** C53: existing folders *)

(** Unless resuming, preparing jobs removes and changes nothing that exists,
    whether or not it succeeds. *)
Theorem C53_jobs_keep_what_exists :
  forall F seeds reload (c : dict (value F)) d d' r,
  disk_ok d -> ~ asks_resume c ->
  construct_file_list seeds reload c d = (d', r) -> kept d d' /\ disk_ok d'.
Proof. exact @construct_kept. Qed.
Print Assumptions C53_jobs_keep_what_exists.

(** An existing root folder is refused before anything is written. *)
Theorem C53_existing_root_refused :
  forall F seeds reload (c : dict (value F)) d root,
  multi_job c -> ~ asks_resume c -> dget "out_dir" c = Some (VStr root) -> In root (d_dirs d) ->
  exists e, construct_file_list seeds reload c d = (d, Err e).
Proof. exact @construct_root_exists. Qed.
Print Assumptions C53_existing_root_refused.

Example C53_existing_root_case :
  construct_file_list some_seeds keep_value ex_matrix (mkDisk ["runs"] [("runs", [("h0", VInt 1)])])
    = (mkDisk ["runs"] [("runs", [("h0", VInt 1)])], Err FileExistsError) /\
  snd (construct_file_list some_seeds keep_value
    [("out_dir", VStr "runs"); ("set", VList (map VDict [[("out_dir", VStr "here")]]))] (mkDisk ["here"] []))
    = Err FileExistsError.
Proof. vm_compute. repeat split. Qed.
