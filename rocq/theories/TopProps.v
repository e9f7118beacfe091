(** C90: from the command line to the validated arguments of a command. *)
From Coq Require Import String.
From Verif Require Import Base PyStr QBase FileListModel ParseModel ParseSpec DateModel ArgsModel TopModel TopSpec TopProofs.
From Coq Require Import List Ascii Lia.
Import ListNotations.
Open Scope string_scope. Open Scope list_scope. Open Scope nat_scope. Notation length := List.length.

(** each word for a command has the arguments validated and the command run that it is the word for; other words are refused *)
Theorem C90_commands c r : dispatch (Some c) = Ok r <-> exists x, r = (x, x) /\ invokes c x.
Proof. exact (commands_ok c r). Qed.
Print Assumptions C90_commands.
Theorem C90_other_words c : (forall x, ~ invokes c x) -> dispatch (Some c) = Raises ParserError.
Proof. exact (other_command c). Qed.
Print Assumptions C90_other_words.
Example C90_other_ex : (forall x, ~ invokes (lit "plots") x) /\ dispatch (Some (lit "agg")) = Ok (Aggregate, Aggregate).
Proof. split; [intros x I; inversion I|reflexivity]. Qed.
(** no command at all *)
Theorem C90_no_command_refuted : dispatch None = Raises KeyError.
Proof. reflexivity. Qed.
Print Assumptions C90_no_command_refuted.
(** the level of messages: up to two -v after the command; more bring it back to warnings; options before the command are forgotten, --force-overwrite among them *)
Theorem C90_levels_partial c r n : invokes c r -> r <> Version -> n <= 2 -> exists g, parse_globals [] (Some c) (repeat Verbose n) = Ok g /\ screen_level g = asked_level n /\ g_force g = false.
Proof. exact (levels_ok c r n). Qed.
Print Assumptions C90_levels_partial.
Theorem C90_quiet c r : invokes c r -> r <> Version -> exists g, parse_globals [] (Some c) [Quiet] = Ok g /\ screen_level g = ERROR.
Proof. exact (quiet_ok c r). Qed.
Print Assumptions C90_quiet.
Theorem C90_flags c r after g : invokes c r -> r <> Version -> parse_globals [] (Some c) after = Ok g -> (g_force g = true <-> In Force after) /\ (g_quiet g = true <-> In Quiet after).
Proof. exact (after_force c r after g). Qed.
Print Assumptions C90_flags.
Theorem C90_levels_refuted c r n : invokes c r -> r <> Version -> 2 < n -> exists g, parse_globals [] (Some c) (repeat Verbose n) = Ok g /\ screen_level g = WARNING.
Proof. exact (thrice_refuted c r n). Qed.
Print Assumptions C90_levels_refuted.
Theorem C90_before_refuted c r before g : invokes c r -> r <> Version -> read_flags before = Ok g -> parse_globals before (Some c) [] = Ok (mkGlobals false None false).
Proof. exact (before_refuted c r before g). Qed.
Print Assumptions C90_before_refuted.
Example C90_before_ex : read_flags [Force; Quiet] = Ok (mkGlobals true None true) /\ parse_globals [Force; Quiet] (Some (lit "col")) [] = Ok (mkGlobals false None false) /\ parse_globals [] (Some (lit "col")) [Force; Quiet] = Ok (mkGlobals true None true).
Proof. vm_compute. auto. Qed.

(** the options of a layer: each is checked as its kind of text; a text of another kind is reported *)
Theorem C90_checks_partial w k kd : In (k, kd) plot_keywords -> exists chk, check_made w k = Some chk /\
  (forall s v, reads_as w kd s v -> chk s = Ok v) /\ (kd <> KNumbers -> (forall s v, chk s = Ok v -> reads_as w kd s v) /\ forall s e, chk s = Raises e -> e = ParserError).
Proof. exact (checks_ok w k kd). Qed.
Print Assumptions C90_checks_partial.
(** levels of contours: any first and last characters are dropped; other texts are a ValueError *)
Theorem C90_contlevels_refuted w x : In x (lit "[]:7" : list ascii) -> w_number w (lit "10") = Some 10%Q -> exists chk, check_made w "contlevels" = Some chk /\ chk (x :: lit "10" ++ [x]) = Ok (PNumbers [10%Q]) /\
  (forall s, w_number w s = None -> ~ In ","%char s -> chk ("["%char :: s ++ ["]"%char]) = Raises ValueError).
Proof. exact (levels_text_refuted w x). Qed.
Print Assumptions C90_contlevels_refuted.
Definition world1 : world := mkWorld (fun s => if str_eqb s (lit "a.nc") then Some [s] else None) (fun s => match int_of s with Ok z => Some (inject_Z z) | Raises _ => None end) [lit "cis"] [lit "mean"] [lit "red"] [lit "line"].
(** a datagroup of plot: its variable, its files, and exactly the options given, as read *)
Theorem C90_plot_group w variables files fs opts (kws : list (string * str * pval)) :
  variables <> [] -> w_files w files = Some fs -> ~ ends_in_backslash variables -> ~ ends_in_backslash files ->
  NoDup (map (fun e => lit (key_of e)) kws) ->
  Forall2 (fun p (e : string * str * pval) => split_outside_brackets p "=" = [lit (key_of e); snd (fst e)]) (split_outside_brackets opts ",") kws ->
  Forall (fun e : string * str * pval => exists kd, In (key_of e, kd) plot_keywords /\ reads_as w kd (snd (fst e)) (snd e)) kws ->
  exists d, parse_one (plot_table w) 2 (join_on ":" (map escape [variables; files; opts])) = Ok d /\
    dict_get d (lit "variables") = Some (Checked (PText variables)) /\ dict_get d (lit "filenames") = Some (Checked (PFiles fs)) /\
    (forall e, In e kws -> dict_get d (lit (key_of e)) = Some (Checked (snd e))) /\
    (forall k, dict_get d k <> None -> k = lit "variables" \/ k = lit "filenames" \/ In k (map (fun e => lit (key_of e)) kws)).
Proof. exact (plot_group_ok w variables files fs opts kws). Qed.
Print Assumptions C90_plot_group.
Example C90_plot_group_ex : Forall2 (fun p (e : string * str * pval) => split_outside_brackets p "=" = [lit (key_of e); snd (fst e)]) (split_outside_brackets (lit "contlevels=[1,2],color=Red") ",")
    [("contlevels", lit "[1,2]", PNumbers [1; 2]%Q); ("color", lit "Red", PName (Some (lit "red")))] /\
  reads_as world1 KNumbers (lit "[1,2]") (PNumbers [1; 2]%Q) /\ reads_as world1 KColour (lit "Red") (PName (Some (lit "red"))) /\
  parse_one (plot_table world1) 2 (lit "v:a.nc:contlevels=[1,2],color=Red") = Ok [(lit "variables", Checked (PText (lit "v"))); (lit "filenames", Checked (PFiles [lit "a.nc"])); (lit "color", Checked (PName (Some (lit "red")))); (lit "contlevels", Checked (PNumbers [1; 2]%Q))].
Proof.
  split.
  { replace (split_outside_brackets (lit "contlevels=[1,2],color=Red") ",") with [lit "contlevels=[1,2]"; lit "color=Red"] by (vm_compute; reflexivity). constructor; [vm_compute; reflexivity|]. constructor; [vm_compute; reflexivity|constructor]. }
  split.
  - apply (as_numbers world1 [lit "1"; lit "2"] [1; 2]%Q); [discriminate| |constructor; [vm_compute; reflexivity|constructor; [vm_compute; reflexivity|constructor]]]. intros x [<-|[<-|[]]]; cbv; intuition discriminate.
  - split; [apply (as_colour world1 (lit "Red")); [discriminate|left; left; reflexivity]|vm_compute; reflexivity].
Qed.
(** no datagroup without variables or without files *)
Theorem C90_mandatory_plot w input d : parse_one (plot_table w) 2 input = Ok d ->
  exists v t l, dict_get d (lit "variables") = Some (Checked (PText v)) /\ v <> [] /\ w_files w t = Some l /\ dict_get d (lit "filenames") = Some (Checked (PFiles l)).
Proof. exact (mandatory_plot w input d). Qed.
Print Assumptions C90_mandatory_plot.
Theorem C90_mandatory w table input d : In table [basic_table w; aggregate_table w] -> parse_one table 2 input = Ok d ->
  exists v t l, v <> [] /\ dict_get d (lit "variables") = Some (Checked (PWords (multi_split v [","%char]))) /\ w_files w t = Some l /\ dict_get d (lit "filenames") = Some (Checked (PFiles l)).
Proof. exact (mandatory_words w table input d). Qed.
Print Assumptions C90_mandatory.
(** a kernel or a product named in an aggregate datagroup is one that exists *)
Theorem C90_chosen w input d : parse_one (aggregate_table w) 2 input = Ok d ->
  (forall st, dict_get d (lit "kernel") = Some st -> exists s, st = Checked (PText s) /\ In s (w_kernels w)) /\
  (forall st, dict_get d (lit "product") = Some st -> st = Checked (PName None) \/ exists s, st = Checked (PName (Some s)) /\ In s (w_products w)).
Proof. exact (chosen_aggregate w input d). Qed.
Print Assumptions C90_chosen.
Example C90_chosen_ex : exists d, parse_one (aggregate_table world1) 2 (lit "v:a.nc:product=cis,kernel=mean") = Ok d /\ dict_get d (lit "kernel") = Some (Checked (PText (lit "mean"))) /\ dict_get d (lit "product") = Some (Checked (PName (Some (lit "cis")))).
Proof. eexists. split; [vm_compute; reflexivity|]. split; reflexivity. Qed.
(** a second "=" and what follows is dropped *)
Theorem C90_equals_refuted w fs : w_files w (lit "f") = Some fs -> exists d, parse_one (plot_table w) 2 (lit "v:f:label=a=b,cmap=x") = Ok d /\ dict_get d (lit "label") = Some (Checked (PText (lit "a"))).
Proof. exact (equals_refuted w fs). Qed.
Print Assumptions C90_equals_refuted.

(** a command that goes on may write its output: with consent, and on none of the files it reads *)
Theorem C90_subset w env force E groups ranges output gs l v out : validate_subset w env force E groups ranges output = Runs ((gs, l), (v, out)) ->
  groups_by (basic_table w) 2 groups = Ok gs /\ get_subset_limits E ranges = Ok l /\ may_write_over env force gs out.
Proof. exact (subset_runs w env force E groups ranges output gs l v out). Qed.
Print Assumptions C90_subset.
Theorem C90_aggregate w env force E groups text output gs g v out : validate_aggregate w env force E groups text output = Runs ((gs, g), (v, out)) ->
  groups_by (aggregate_table w) 2 groups = Ok gs /\ get_aggregate_grid E text = Ok g /\ may_write_over env force gs out.
Proof. exact (aggregate_runs w env force E groups text output gs g v out). Qed.
Print Assumptions C90_aggregate.
Theorem C90_collapse w env force groups dims output gs ds v out : validate_collapse w env force groups dims output = Runs ((gs, ds), (v, out)) ->
  groups_by (aggregate_table w) 2 groups = Ok gs /\ ds = collapse_dims dims /\ may_write_over env force gs out.
Proof. exact (collapse_runs w env force groups dims output gs ds v out). Qed.
Print Assumptions C90_collapse.
Theorem C90_eval w env force groups attributes output gs va at_ v out : validate_eval w env force groups attributes output = Runs ((gs, va, at_), (v, out)) ->
  groups_by (basic_table w) 2 groups = Ok gs /\ set_aliases (map variables_of gs) = Ok va /\ create_attributes_dictionary attributes = Ok at_ /\ may_write_over env force gs out.
Proof. exact (eval_runs w env force groups attributes output gs va at_ v out). Qed.
Print Assumptions C90_eval.
Theorem C90_collocate w env force sample groups output s gs v out : validate_col w env force sample groups output = Runs ((s, gs), (v, out)) ->
  parse_one (sample_table w) 1 sample = Ok s /\ groups_by (basic_table w) 2 groups = Ok gs /\ may_write_over env force (s :: gs) out.
Proof. exact (col_runs w env force sample groups output s gs v out). Qed.
Print Assumptions C90_collocate.
Theorem C90_plot w env force groups output gs o : validate_plot w env force groups output = Runs (gs, o) -> groups_by (plot_table w) 2 groups = Ok gs /\ match o with None => output = None | Some (_, out) => may_write_over env force gs out end.
Proof. exact (plot_runs w env force groups output gs o). Qed.
Print Assumptions C90_plot.
(** stats: exactly two variables over all datagroups *)
Theorem C90_stats w env force groups gs output : groups_by (basic_table w) 2 groups = Ok gs ->
  exists ls, Forall2 names_of gs ls /\
  (length (concat ls) <> 2 -> validate_stats w env force groups output = Fails ParserError) /\
  (length (concat ls) = 2 -> output = None \/ output = Some [] -> validate_stats w env force groups output = Runs (gs, None)) /\
  (forall gs' o, validate_stats w env force groups output = Runs (gs', o) -> gs' = gs /\ length (concat ls) = 2 /\ match o with None => output = None \/ output = Some [] | Some (_, out) => may_write_over env force gs out end).
Proof. exact (stats_ok w env force groups gs output). Qed.
Print Assumptions C90_stats.
(** and it does go on, if its arguments are valid and its output may be written *)
Theorem C90_goes_on w env force E groups gs o out : may_write_over env force gs out ->
  (written env (lit ".nc") o out -> groups_by (basic_table w) 2 groups = Ok gs -> forall ranges l, get_subset_limits E ranges = Ok l -> validate_subset w env force E groups ranges (Some o) = Runs ((gs, l), (None, out))) /\
  (written env (lit ".nc") o out -> groups_by (aggregate_table w) 2 groups = Ok gs -> forall text g, get_aggregate_grid E text = Ok g -> validate_aggregate w env force E groups text (Some o) = Runs ((gs, g), (None, out))) /\
  (written env (lit ".nc") o out -> groups_by (aggregate_table w) 2 groups = Ok gs -> forall dims, validate_collapse w env force groups dims (Some o) = Runs ((gs, collapse_dims dims), (None, out))) /\
  (written env (lit ".nc") o out -> groups_by (basic_table w) 2 groups = Ok gs -> forall text va a, set_aliases (map variables_of gs) = Ok va -> create_attributes_dictionary text = Ok a -> validate_eval w env force groups text (Some o) = Runs ((gs, va, a), (None, out))) /\
  (written env (lit ".nc") o out -> forall sample s gs', gs = s :: gs' -> parse_one (sample_table w) 1 sample = Ok s -> groups_by (basic_table w) 2 groups = Ok gs' -> validate_col w env force sample groups (Some o) = Runs ((s, gs'), (None, out))) /\
  (written env (lit ".png") o out -> groups_by (plot_table w) 2 groups = Ok gs -> validate_plot w env force groups (Some o) = Runs (gs, Some (None, out))) /\
  (written env (lit ".nc") o out -> o <> [] -> groups_by (basic_table w) 2 groups = Ok gs -> forall ls, Forall2 names_of gs ls -> length (concat ls) = 2 -> validate_stats w env force groups (Some o) = Runs (gs, Some (None, out))).
Proof. exact (goes_on w env force E groups gs o out). Qed.
Print Assumptions C90_goes_on.
Definition env1 : environment := mkEnv (fun s => str_eqb s (lit "a.nc")) (fun s => str_eqb s (lit "a.nc")) str_eqb (fun s => has_char "."%char s) [] [lit "y"].
Example C90_runs_ex : (exists gs, validate_stats world1 env1 false [lit "x:a.nc"; lit "y:a.nc"] (Some (lit "v:out")) = Runs (gs, Some (Some (lit "v"), lit "out.nc"))) /\
  validate_stats world1 env1 false [lit "x,y:a.nc"; lit "y:a.nc"] None = Fails ParserError /\ validate_stats world1 env1 false [lit "x,y:a.nc"] (Some (lit "a.nc")) = Fails ParserError /\
  (exists s gs, validate_col world1 env1 false (lit "a.nc:variable=q,collocator=box[h_sep=1km]") [lit "x:a.nc"] (Some (lit "out")) = Runs ((s, gs), (None, lit "out.nc"))) /\
  (exists gs, validate_plot world1 env1 false [lit "x:a.nc:color=red"] (Some (lit "out")) = Runs (gs, Some (None, lit "out.png"))).
Proof. split; [eexists; vm_compute; reflexivity|]. split; [reflexivity|]. split; [reflexivity|]. split; [eexists _, _; vm_compute; reflexivity|]. eexists. vm_compute. reflexivity. Qed.
(** a bare -o *)
Theorem C90_bare_output_refuted w env force E groups gs ranges l : groups_by (basic_table w) 2 groups = Ok gs -> get_subset_limits E ranges = Ok l -> validate_subset w env force E groups ranges None = Fails TypeError.
Proof. exact (bare_output_refuted w env force E groups gs ranges l). Qed.
Print Assumptions C90_bare_output_refuted.
(** the dimensions of collapse: separated by commas or by blanks - not both *)
Theorem C90_dimensions_partial : forall names, names <> [] -> (forall n, In n names -> ~ In ","%char n) -> collapse_dims [join_on "," names] = names /\ (length names <> 1 -> collapse_dims names = names).
Proof. exact dims_ok. Qed.
Print Assumptions C90_dimensions_partial.
Example C90_dimensions_ex : collapse_dims [lit "x,y"] = [lit "x"; lit "y"] /\ collapse_dims [lit "x"; lit "y"] = [lit "x"; lit "y"].
Proof. split; reflexivity. Qed.
Theorem C90_dimensions_refuted a b c : collapse_dims [a ++ ","%char :: b; c] = [a ++ ","%char :: b; c].
Proof. exact (dims_refuted a b c). Qed.
Print Assumptions C90_dimensions_refuted.
