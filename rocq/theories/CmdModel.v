(** Model of the commands: cis/cis_main.py:64-223 (collocate, subset, aggregate, collapse, eval, stats), over files that may be linked. *)
From Coq Require Import String.
From Verif Require Import Base PyStr ParseModel RdrModel EvalModel.
From Coq Require Import List.
Import ListNotations.
Open Scope string_scope. Open Scope list_scope. Open Scope nat_scope. Notation length := List.length.

Section Cmd.
(** data (lists of data objects, which can be saved), samples, kernels *)
Context {D S K : Type}.

(** ** Files: a name leads to a file (several names may lead to the same one: links), a file holds the saved data or other bytes. *)
Inductive content := Result (d : D) | Bytes (n : nat).
Record files := mkFiles { f_ino : str -> option nat; f_body : nat -> content; f_next : nat (* not in use, nor any number after it *) }.
Definition view (fs : files) (p : str) : option content := option_map (f_body fs) (f_ino fs p).
(** What [save_data] does (iris.save, write_coordinates and add_data_to_file open the file for writing, which keeps the file a name leads to):
    all of it; an error before the file is opened; an error after it, which leaves some bytes. *)
Inductive saving := Saved | Refused (e : exn) | BrokenOff (e : exn) (n : nat).

(** How a command ends: normally; by exit(1); with an exception (main reports it and exits with status 1, cis_main.py:273-282) *)
Inductive ending := Done | Exit1 | Error (e : exn).

(** a datagroup with the kernel option *)
Record cgroup := mkCg { c_group : datagroup; c_kernel : option str }.
Definition options := list (str * option str).
(** What the commands call: reading depends on what the files hold. *)
Record world := mkWorld {
  w_read : (str -> option content) -> datagroup -> res D;
  w_is_gridded : D -> bool;
  w_sample : (str -> option content) -> list str -> option str -> option str -> res S; (* read_data_list(..)[0] of a variable, or read_coordinates *)
  w_get_kernel : str -> options -> res K;
  w_collocated_onto : D -> S -> str -> option K -> option bool -> options -> res D;
  w_subset : list (str * str) -> D -> res (option D);
  w_aggregate : str -> list (str * option str) -> D -> res D;
  w_collapsed : str -> list str -> D -> res D;
  w_evaluate : list D -> str -> res D;
  w_stats : list D -> res D;                       (* the analysis and the cubes of its results *)
  w_save : D -> str -> saving
}.

Definition write (fs : files) (p : str) (c : content) : files :=
  match f_ino fs p with
  | Some i => mkFiles (f_ino fs) (fun j => if j =? i then c else f_body fs j) (f_next fs)
  | None => mkFiles (fun q => if str_eqb q p then Some (f_next fs) else f_ino fs q) (fun j => if j =? f_next fs then c else f_body fs j) (1 + f_next fs)
  end.
Definition save_data (w : world) (d : D) (p : str) (fs : files) : files * ending :=
  match w_save w d p with
  | Saved => (write fs p (Result d), Done)
  | Refused e => (fs, Error e)
  | BrokenOff e n => (write fs p (Bytes n), Error e)
  end.
(** an expression that may raise, then the rest of the command *)
Definition try {A} (x : res A) (fs : files) (k : A -> files * ending) : files * ending := match x with Ok a => k a | Raises e => (fs, Error e) end.

(** check_boolean(arg, logging), parse.py:782-788: logging.error only writes to the log, and the function returns None *)
Definition check_boolean (arg : option str) : option bool :=
  match arg with
  | None => Some true
  | Some s => if str_eqb (lower s) (lit "true") then Some true else if str_eqb (lower s) (lit "false") then Some false else None
  end.
(** col_options.pop(key, default) *)
Definition pop (o : options) (k : str) (default : option str) : option str * options :=
  (match dict_get o k with Some v => v | None => default end, filter (fun kv => negb (str_eqb (fst kv) k)) o).
Definition mdfms : str := lit "missing_data_for_missing_sample".

Record col_args := mkCol { ca_groups : list datagroup; ca_samplefiles : list str; ca_samplevariable : option str; ca_sampleproduct : option str;
  ca_collocator : option (str * options); ca_kernel : option (str * options); ca_output : str }.
(** the loop, 94-100 *)
Fixpoint collocate_groups (w : world) (sample : S) (col_name : str) (kernel : option K) (missing : option bool) (col_options : options) (output : str)
    (groups : list datagroup) (fs : files) : files * ending :=
  match groups with
  | [] => (fs, Done)
  | g :: groups =>
      try (w_read w (view fs) g) fs (fun data =>
      try (w_collocated_onto w data sample col_name kernel missing col_options) fs (fun out =>
      let (fs', e) := save_data w out output fs in
      match e with Done => collocate_groups w sample col_name kernel missing col_options output groups fs' | _ => (fs', e) end))
  end.
(** col_cmd, 64-100 *)
Definition col_cmd (w : world) (a : col_args) (fs : files) : files * ending :=
  try (w_sample w (view fs) (ca_samplefiles a) (ca_samplevariable a) (ca_sampleproduct a)) fs (fun sample =>
  let default := match ca_samplevariable a with Some _ => lit "True" | None => lit "False" end in
  let (col_name, col_options) := match ca_collocator a with Some c => c | None => ([], []) end in
  let (kern_name, kern_options) := match ca_kernel a with Some k => k | None => ([], []) end in
  let (given, col_options) := pop col_options mdfms (Some default) in
  let missing := check_boolean given in
  try (match kern_name with [] => Ok None | _ => match w_get_kernel w kern_name kern_options with Ok k => Ok (Some k) | Raises e => Raises e end end) fs (fun kernel =>
  collocate_groups w sample col_name kernel missing col_options (ca_output a) (ca_groups a) fs)).

(** exit(1) for more than one datagroup; datagroups[0] *)
Definition only_group (gs : list cgroup) (fs : files) (k : cgroup -> files * ending) : files * ending :=
  match gs with [] => (fs, Error IndexError) | [g] => k g | _ => (fs, Exit1) end.
Definition kernel_of (g : cgroup) : str := match c_kernel g with Some k => k | None => [] end.
(** subset_cmd, 103-123 *)
Definition subset_cmd (w : world) (gs : list cgroup) (limits : list (str * str)) (output : str) (fs : files) : files * ending :=
  only_group gs fs (fun g =>
  try (w_read w (view fs) (c_group g)) fs (fun data =>
  try (w_subset w limits data) fs (fun s => match s with None => (fs, Error NoDataInSubsetError) | Some d => save_data w d output fs end))).
(** aggregate_cmd, 126-152 *)
Definition aggregate_cmd (w : world) (gs : list cgroup) (grid : list (str * option str)) (output : str) (fs : files) : files * ending :=
  only_group gs fs (fun g =>
  try (w_read w (view fs) (c_group g)) fs (fun data =>
  try (if w_is_gridded w data
       then if existsb (fun kv => match snd kv with Some _ => true | None => false end) grid then Raises InvalidCommandLineOptionError
            else w_collapsed w (kernel_of g) (map fst grid) data
       else w_aggregate w (kernel_of g) grid data) fs (fun d => save_data w d output fs))).
(** collapse_cmd, 155-175: ungridded data are only reported in the log, and have no [collapsed] *)
Definition collapse_cmd (w : world) (gs : list cgroup) (dimensions : list str) (output : str) (fs : files) : files * ending :=
  only_group gs fs (fun g =>
  try (w_read w (view fs) (c_group g)) fs (fun data =>
  try (if w_is_gridded w data then w_collapsed w (kernel_of g) dimensions data else Raises AttributeError) fs (fun d => save_data w d output fs))).
(** read_datagroups on the data of each group *)
Fixpoint read_groups (w : world) (v : str -> option content) (gs : list datagroup) : res (list D) :=
  match gs with [] => Ok [] | g :: gs => match w_read w v g with Raises e => Raises e | Ok d => match read_groups w v gs with Raises e => Raises e | Ok ds => Ok (d :: ds) end end end.
(** evaluate_cmd, 178-190 *)
Definition evaluate_cmd (w : world) (gs : list datagroup) (expr : str) (output : str) (fs : files) : files * ending :=
  try (read_groups w (view fs) gs) fs (fun ds => try (w_evaluate w ds expr) fs (fun d => save_data w d output fs)).
(** stats_cmd, 193-223: written only if an output was asked for *)
Definition stats_cmd (w : world) (gs : list datagroup) (output : option str) (fs : files) : files * ending :=
  try (read_groups w (view fs) gs) fs (fun ds => try (w_stats w ds) fs (fun d => match output with Some p => save_data w d p fs | None => (fs, Done) end)).
End Cmd.
Arguments content : clear implicits. Arguments files : clear implicits. Arguments world : clear implicits.
