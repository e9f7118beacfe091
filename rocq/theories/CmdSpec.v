(** Specification for C52, C61 and C64. *)
From Coq Require Import String.
From Verif Require Import Base PyStr ParseModel RdrModel EvalModel CmdModel.
From Coq Require Import List.
Import ListNotations.
Open Scope string_scope. Open Scope list_scope. Open Scope nat_scope. Notation length := List.length.

Section Spec.
Context {D S K : Type}.
(** the numbers of files in use are below the next one *)
Definition sound (fs : files D) : Prop := forall p i, f_ino fs p = Some i -> i < f_next fs.
(** two names of one existing file *)
Definition same_file (fs : files D) (p q : str) : Prop := exists i, f_ino fs p = Some i /\ f_ino fs q = Some i.
(** nothing but the file called [out] is changed *)
Definition changes_only (out : str) (fs fs' : files D) : Prop := forall p, p <> out -> ~ same_file fs out p -> view fs' p = view fs p.
Definition changes_nothing (fs fs' : files D) : Prop := forall p, view fs' p = view fs p.
(** reading a datagroup looks at its files only *)
Definition reads_its_files (w : world D S K) : Prop := forall v v' g, (forall p, In p (g_files g) -> v p = v' p) -> w_read w v g = w_read w v' g.
(** A command that computes [d] (or not) and saves it: what is in the output, and when. *)
Definition all_or_nothing (w : world D S K) (computed : res D -> Prop) (out : str) (fs fs' : files D) (e : ending) : Prop :=
  changes_only out fs fs' /\
  match e with
  | Done => exists d, computed (Ok d) /\ view fs' out = Some (Result d)
  | Exit1 => changes_nothing fs fs'
  | Error x => (computed (Raises x) /\ changes_nothing fs fs') \/
               (exists d, computed (Ok d) /\ ((w_save w d out = Refused x /\ changes_nothing fs fs') \/ exists n, w_save w d out = BrokenOff x n /\ view fs' out = Some (Bytes n)))
  end.
(** the environment of the checks on the command line is that of the files *)
Definition describes (env : environment) (fs : files D) : Prop :=
  (forall p, env_exists env p = true <-> f_ino fs p <> None) /\ (forall p q, env_samefile env p q = true <-> same_file fs p q).
(** the computations of the commands *)
Definition group_data (w : world D S K) (fs : files D) (gs : list cgroup) (k : cgroup -> D -> res D -> Prop) (r : res D) : Prop :=
  match gs with
  | [] => r = Raises IndexError
  | g :: gs => gs = [] /\ match w_read w (view fs) (c_group g) with Raises e => r = Raises e | Ok data => k g data r end
  end.
Definition subset_result (w : world D S K) (limits : list (str * str)) (_ : cgroup) (data : D) (r : res D) : Prop :=
  match w_subset w limits data with Raises e => r = Raises e | Ok None => r = Raises NoDataInSubsetError | Ok (Some d) => r = Ok d end.
Definition kernel_name (g : cgroup) : str := match c_kernel g with Some k => k | None => [] end.
Definition has_grid (grid : list (str * option str)) : Prop := exists n s, In (n, Some s) grid.
Definition aggregate_result (w : world D S K) (grid : list (str * option str)) (g : cgroup) (data : D) (r : res D) : Prop :=
  (w_is_gridded w data = true /\ has_grid grid /\ r = Raises InvalidCommandLineOptionError) \/
  (w_is_gridded w data = true /\ ~ has_grid grid /\ r = w_collapsed w (kernel_name g) (map fst grid) data) \/
  (w_is_gridded w data = false /\ r = w_aggregate w (kernel_name g) grid data).
Definition collapse_result (w : world D S K) (dims : list str) (g : cgroup) (data : D) (r : res D) : Prop :=
  (w_is_gridded w data = true /\ r = w_collapsed w (kernel_name g) dims data) \/ (w_is_gridded w data = false /\ r = Raises AttributeError).
(** the data of all the groups, or the first error *)
Definition reads_all (w : world D S K) (fs : files D) (gs : list datagroup) (ds : list D) : Prop := Forall2 (fun g d => w_read w (view fs) g = Ok d) gs ds.
Definition many_result (w : world D S K) (fs : files D) (gs : list datagroup) (k : list D -> res D) (r : res D) : Prop :=
  (exists ds, reads_all w fs gs ds /\ r = k ds) \/
  (exists gs1 g gs2 ds e, gs = gs1 ++ g :: gs2 /\ reads_all w fs gs1 ds /\ w_read w (view fs) g = Raises e /\ r = Raises e).
(** the collocation of one datagroup *)
Definition option_given (a : col_args) : option (option str) := match ca_collocator a with Some c => dict_get (snd c) mdfms | None => None end.
Definition truth (s : str) (b : bool) : Prop := lower s = if b then lit "true" else lit "false".
(** what is meant to happen with missing sample points: what the option says, or by default: skip them if a sample variable was given *)
Definition meant (a : col_args) (b : bool) : Prop :=
  match option_given a with
  | None => b = match ca_samplevariable a with Some _ => true | None => false end
  | Some None => b = true
  | Some (Some s) => truth s b
  end.
Definition other_options (a : col_args) : options := match ca_collocator a with Some c => filter (fun kv => negb (str_eqb (fst kv) mdfms)) (snd c) | None => [] end.
Definition col_name_of (a : col_args) : str := match ca_collocator a with Some c => fst c | None => [] end.
Definition sample_of (w : world D S K) (a : col_args) (fs : files D) (s : S) : Prop := w_sample w (view fs) (ca_samplefiles a) (ca_samplevariable a) (ca_sampleproduct a) = Ok s.
Definition kernel_is (w : world D S K) (a : col_args) (k : option K) : Prop :=
  match ca_kernel a with
  | Some (c :: n, o) => exists k', w_get_kernel w (c :: n) o = Ok k' /\ k = Some k'
  | _ => k = None
  end.
Definition collocated (w : world D S K) (a : col_args) (fs : files D) (s : S) (k : option K) (m : option bool) (g : datagroup) (d : D) : Prop :=
  exists data, w_read w (view fs) g = Ok data /\ w_collocated_onto w data s (col_name_of a) k m (other_options a) = Ok d.
(** [m] is what is meant, or None if the option is not a truth value *)
Definition meant_or_none (a : col_args) (m : option bool) : Prop := match m with Some b => meant a b | None => forall b, ~ meant a b end.
(** the input files are not the output *)
Definition apart (a : col_args) (fs : files D) : Prop := forall g p, In g (ca_groups a) -> In p (g_files g) -> p <> ca_output a /\ ~ same_file fs (ca_output a) p.
(** the output after the datagroups that gave [ds]: the last of them, or as before *)
Definition last_result (fs : files D) (out : str) (ds : list D) (c : option (content D)) : Prop :=
  (ds = [] /\ c = view fs out) \/ exists ds0 d, ds = ds0 ++ [d] /\ c = Some (Result d).
(** the datagroup cannot be read, or collocated *)
Definition not_collocated (w : world D S K) (a : col_args) (fs : files D) (s : S) (k : option K) (m : option bool) (g : datagroup) (x : exn) : Prop :=
  w_read w (view fs) g = Raises x \/ exists data, w_read w (view fs) g = Ok data /\ w_collocated_onto w data s (col_name_of a) k m (other_options a) = Raises x.
(** a command with output [out] and those input files took the files from [fs] to [fs'] *)
Inductive command_ran (w : world D S K) (out : str) (fs fs' : files D) (e : ending) : list str -> Prop :=
| ran_subset gs limits : subset_cmd w gs limits out fs = (fs', e) -> command_ran w out fs fs' e (flat_map (fun g => g_files (c_group g)) gs)
| ran_aggregate gs grid : aggregate_cmd w gs grid out fs = (fs', e) -> command_ran w out fs fs' e (flat_map (fun g => g_files (c_group g)) gs)
| ran_collapse gs dims : collapse_cmd w gs dims out fs = (fs', e) -> command_ran w out fs fs' e (flat_map (fun g => g_files (c_group g)) gs)
| ran_evaluate gs expr : evaluate_cmd w gs expr out fs = (fs', e) -> command_ran w out fs fs' e (flat_map g_files gs)
| ran_stats gs : stats_cmd w gs (Some out) fs = (fs', e) -> command_ran w out fs fs' e (flat_map g_files gs)
| ran_collocate a : ca_output a = out -> col_cmd w a fs = (fs', e) -> command_ran w out fs fs' e (ca_samplefiles a ++ flat_map g_files (ca_groups a)).
End Spec.
