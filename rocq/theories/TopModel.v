(** From the command line to the validated arguments of a command: cis/parse.py (initialise_top_parser 48-88, the checks of options 302-372 and 699-788, get_plot_datagroups and the other
    datagroups 375-437 and 491-503, the validators 873-963, parse_args 966-1006) and cis/cis_main.py (commands, parse_and_run_arguments 228-258). *)
From Coq Require Import String.
From Verif Require Import Base PyStr QBase FileListModel ParseModel DateModel ArgsModel.
From Coq Require Import List Ascii.
Import ListNotations.
Open Scope string_scope. Open Scope list_scope. Open Scope nat_scope. Notation length := List.length.

(** *** the options common to the commands, 52-63.  argparse (a contract): -v counts, the others are flags; -v and -q together are an error.  A command's own parser starts from the defaults,
    and its values replace those that were read before the command (argparse's _SubParsersAction since Python 3.4.3); the parser of version (87) has no such options *)
Inductive flag := Verbose | Quiet | Force.
Record globals := mkGlobals { g_quiet : bool; g_verbose : option nat; g_force : bool }.
Definition is_v (f : flag) : bool := match f with Verbose => true | _ => false end.
Definition is_q (f : flag) : bool := match f with Quiet => true | _ => false end.
Definition is_f (f : flag) : bool := match f with Force => true | _ => false end.
Definition read_flags (l : list flag) : res globals :=
  if existsb is_q l && existsb is_v l then Raises ParserError
  else Ok (mkGlobals (existsb is_q l) (match length (filter is_v l) with 0 => None | n => Some n end) (existsb is_f l)).
Definition parse_globals (before : list flag) (command : option str) (after : list flag) : res globals :=
  bind (read_flags before) (fun top =>
  match command with
  | Some c => if str_eqb c (lit "version") then match after with [] => Ok top | _ => Raises ParserError end else read_flags after
  | None => Ok top
  end).
(** 995-1002, with the level of the screen in logging.conf:29-32 *)
Inductive level := DEBUG | INFO | WARNING | ERROR.
Definition screen_level (g : globals) : level :=
  if g_quiet g then ERROR else match g_verbose g with Some 1 => INFO | Some 2 => DEBUG | _ => WARNING end.

(** *** commands.  subparsers, 68-88 with AliasedSubParsersAction 29-45: the names argparse accepts; aliases 976-978 *)
Inductive routine := Plot | Info | Collocate | Aggregate | Collapse | Subset | Eval | Stats | Version.
Definition parser_names : list str :=
  [lit "plot"; lit "info"; lit "collocate"; lit "col"; lit "aggregate"; lit "agg"; lit "subset"; lit "sub"; lit "eval"; lit "stats"; lit "collapse"; lit "version"].
Definition aliases : list (str * str) := [(lit "col", lit "collocate"); (lit "sub", lit "subset"); (lit "agg", lit "aggregate")].
(** validators, parse.py:966-974; commands, cis_main.py:228-236 *)
Definition validators : list (str * routine) :=
  [(lit "plot", Plot); (lit "info", Info); (lit "collocate", Collocate); (lit "aggregate", Aggregate); (lit "collapse", Collapse); (lit "subset", Subset); (lit "eval", Eval); (lit "stats", Stats); (lit "version", Version)].
Definition commands : list (str * routine) :=
  [(lit "plot", Plot); (lit "info", Info); (lit "collocate", Collocate); (lit "aggregate", Aggregate); (lit "subset", Subset); (lit "collapse", Collapse); (lit "eval", Eval); (lit "stats", Stats); (lit "version", Version)].
Definition look {A} (d : list (str * A)) (k : str) : res A := match dict_get d k with Some a => Ok a | None => Raises KeyError end.
(** the routine that validates the arguments, and the one that is run; no command at all: command is None (Python 3) *)
Definition dispatch (command : option str) : res (routine * routine) :=
  match command with
  | None => Raises KeyError
  | Some c =>
    if existsb (str_eqb c) parser_names then
      let name := match dict_get aliases c with Some n => n | None => c end in
      bind (look validators name) (fun v => bind (look commands name) (fun r => Ok (v, r)))
    else Raises ParserError
  end.

(** *** the checks of options.  The world: expand_file_list (C03; None: parser.error), float(), and the names of the products, kernels, colours and plot types *)
Inductive pval := PText (s : str) | PWords (l : list str) | PFiles (l : list str) | PNumber (q : option Q) | PInt (z : option Z) | PNumbers (l : list Q) | PBool (b : bool) | PName (s : option str) | PMethod (m : str * list (str * optval)).
Record world := mkWorld { w_files : str -> option (list str); w_number : str -> option Q; w_products : list str; w_kernels : list str; w_colours : list str; w_plots : list str }.
Section Checks.
Variable w : world.
Definition check_nothing (s : str) : res pval := Ok (PText s).                                                                                    (* 699-700 *)
Definition check_is_not_empty (s : str) : res pval := match s with [] => Raises ParserError | _ => Ok (PText s) end.                               (* 703-706 *)
Definition check_words (s : str) : res pval := match s with [] => Raises ParserError | _ => Ok (PWords (multi_split s [","%char])) end.           (* 709-711 *)
Definition check_files (s : str) : res pval := match w_files w s with Some l => Ok (PFiles l) | None => Raises ParserError end.                   (* 268-293 *)
Definition check_float (s : str) : res pval :=                                                                                                     (* 302-323 *)
  if str_eqb s (lit "None") then Ok (PNumber None) else match w_number w s with Some q => Ok (PNumber (Some q)) | None => Raises ParserError end.
Definition check_int (s : str) : res pval :=                                                                                                       (* 326-344 *)
  match s with [] => Ok (PInt None) | _ => match int_of s with Ok z => Ok (PInt (Some z)) | Raises _ => Raises ParserError end end.
Definition float_of (s : str) : res Q := match w_number w s with Some q => Ok q | None => Raises ValueError end.
Definition check_floats (s : str) : res pval := bind (map_res float_of (split_on "," (removelast (tl s)))) (fun l => Ok (PNumbers l)).            (* 752-754: arg[1:-1] *)
Definition check_type (s : str) : res pval := if existsb (str_eqb s) (w_plots w) then Ok (PText s) else Raises ParserError.                       (* 757-767 *)
Definition check_colour (s : str) : res pval :=                                                                                                    (* 770-779 *)
  match s with [] => Ok (PName None) | _ => if existsb (str_eqb (lower s)) (w_colours w) || str_eqb (lower s) (lit "grey") then Ok (PName (Some (lower s))) else Raises ParserError end.
Definition check_bool (s : str) : res pval :=                                                                                                      (* 782-788 *)
  if str_eqb (lower s) (lit "true") then Ok (PBool true) else if str_eqb (lower s) (lit "false") then Ok (PBool false) else Raises ParserError.
Definition check_product (s : str) : res pval := match s with [] => Ok (PName None) | _ => if existsb (str_eqb s) (w_products w) then Ok (PName (Some s)) else Raises ParserError end. (* 347-359 *)
Definition check_kernel (s : str) : res pval := if existsb (str_eqb s) (w_kernels w) then Ok (PText s) else Raises ParserError.                   (* 362-372 *)
Definition check_method (s : str) : res pval := Ok (PMethod (extract_method_and_args s)).                                                          (* 669-676 *)

(** get_plot_datagroups 375-393, get_basic_datagroups 491-503 (get_eval_datagroups 425-437), get_aggregate_datagroups 411-422, get_col_samplegroup 396-408 *)
Definition plot_table : list (str * checker pval) :=
  combine [lit "variables"; lit "filenames"; lit "color"; lit "edgecolor"; lit "itemstyle"; lit "itemwidth"; lit "label"; lit "product"; lit "type"; lit "alpha"; lit "cmap"; lit "vmin"; lit "vmax"; lit "vstep";
           lit "contnlevels"; lit "contlevels"; lit "contlabel"; lit "contwidth"; lit "cbarscale"; lit "cbarorient"; lit "colourbar"; lit "cbarlabel"]
          [check_is_not_empty; check_files; check_colour; check_colour; check_nothing; check_float; check_nothing; check_product; check_type; check_float; check_nothing; check_float; check_float; check_float;
           check_int; check_floats; check_bool; check_int; check_float; check_nothing; check_bool; check_nothing].
Definition basic_table : list (str * checker pval) := [(lit "variables", check_words); (lit "filenames", check_files); (lit "product", check_product)].
Definition aggregate_table : list (str * checker pval) := [(lit "variables", check_words); (lit "filenames", check_files); (lit "product", check_product); (lit "kernel", check_kernel)].
Definition sample_table : list (str * checker pval) :=
  [(lit "filenames", check_files); (lit "variable", check_nothing); (lit "collocator", check_method); (lit "constraint", check_method); (lit "kernel", check_method); (lit "product", check_product)].

(** *** the validators, 873-958 *)
Definition dict : Type := list (str * stored pval).
Definition files_of (d : dict) : list str := match dict_get d (lit "filenames") with Some (Checked (PFiles l)) => l | _ => [] end.
Definition variables_of (d : dict) : list str := match dict_get d (lit "variables") with Some (Checked (PWords l)) => l | _ => [] end.
Definition groups_by (table : list (str * checker pval)) (comp : nat) (groups : list str) : res (list dict) := map_res (parse_one table comp) groups.
(** a command goes on with its arguments, stops without an error, or fails *)
Inductive verdict (A : Type) := Runs (a : A) | Quits | Fails (e : exn).
Arguments Runs {A} a. Arguments Quits {A}. Arguments Fails {A} e.
Definition within {A B} (x : res A) (k : A -> verdict B) : verdict B := match x with Ok a => k a | Raises e => Fails e end.
Variable env : environment.
Variable force : bool.
(** _validate_output_file, 791-808, on arguments.output: None after a bare -o (nargs="?"), of which ':' in None is a TypeError *)
Definition with_output {A} (ext : str) (output : option str) (inputs : list str) (a : A) : verdict (A * (option str * str)) :=
  match output with
  | None => Fails TypeError
  | Some o => match validate_output_file env force ext o inputs with Proceed v out => Runs (a, (v, out)) | ExitNoOp => Quits | ErrorExit => Fails ParserError end
  end.
Definition nc : str := lit ".nc".
Definition validate_subset (E : readers) (groups : list str) (ranges : str) (output : option str) : verdict ((list dict * list (str * limits)) * (option str * str)) :=
  within (groups_by basic_table 2 groups) (fun gs => within (get_subset_limits E ranges) (fun l => with_output nc output (flat_map files_of gs) (gs, l))).
Definition validate_aggregate (E : readers) (groups : list str) (gridtext : str) (output : option str) : verdict ((list dict * list (str * option grid)) * (option str * str)) :=
  within (groups_by aggregate_table 2 groups) (fun gs => within (get_aggregate_grid E gridtext) (fun g => with_output nc output (flat_map files_of gs) (gs, g))).
Definition collapse_dims (dims : list str) : list str := match dims with [d] => split_on "," d | _ => dims end.
Definition validate_collapse (groups dims : list str) (output : option str) : verdict ((list dict * list str) * (option str * str)) :=
  within (groups_by aggregate_table 2 groups) (fun gs => with_output nc output (flat_map files_of gs) (gs, collapse_dims dims)).
Definition validate_eval (groups : list str) (attributes : option str) (output : option str) : verdict ((list dict * list (list str * list str) * option (list (str * str))) * (option str * str)) :=
  within (groups_by basic_table 2 groups) (fun gs => within (set_aliases (map variables_of gs)) (fun va => within (create_attributes_dictionary attributes) (fun at_ =>
    with_output nc output (flat_map files_of gs) (gs, va, at_)))).
Definition validate_stats (groups : list str) (output : option str) : verdict (list dict * option (option str * str)) :=
  within (groups_by basic_table 2 groups) (fun gs =>
    if list_sum (map (fun d => length (variables_of d)) gs) =? 2 then
      match output with
      | None | Some [] => Runs (gs, None)
      | Some _ => match with_output nc output (flat_map files_of gs) gs with Runs (a, o) => Runs (a, Some o) | Quits => Quits | Fails e => Fails e end
      end
    else Fails ParserError).
Definition validate_col (sample : str) (groups : list str) (output : option str) : verdict ((dict * list dict) * (option str * str)) :=
  within (parse_one sample_table 1 sample) (fun s => within (groups_by basic_table 2 groups) (fun gs => with_output nc output (files_of s ++ flat_map files_of gs) (s, gs))).
Definition validate_plot (groups : list str) (output : option str) : verdict (list dict * option (option str * str)) :=
  within (groups_by plot_table 2 groups) (fun gs =>
    match output with
    | None => Runs (gs, None)
    | Some _ => match with_output (lit ".png") output (flat_map files_of gs) gs with Runs (a, o) => Runs (a, Some o) | Quits => Quits | Fails e => Fails e end
    end).
End Checks.
Arguments Runs {A} a. Arguments Quits {A}. Arguments Fails {A} e.
