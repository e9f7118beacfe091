(** Properties C07 (bracket splitting), C08 (option validation), C09 (aliases), C10 (overwrite consent),
    C56 (method[arguments]). *)
From Verif Require Import Base PyStr FileListModel ParseModel ParseSpec ParseProofs Parse2Proofs.

(** The input is the pieces, each followed by the separator that ended it, then a tail; the output is those pieces and the
    tail unless empty; the cuts are exactly the separators outside all brackets. *)
Theorem C07_split_outside_brackets : forall br seps s, NoDup (map fst br) ->
  exists parts tail,
    s = assemble parts tail
    /\ split_outside_brackets_gen s seps br = map fst parts ++ (match tail with [] => [] | _ => [tail] end)
    /\ forall i, In i (cut_positions 0 parts) <-> outside_separator br seps s i.
Proof. exact (fun br seps s ND => split_outside_brackets_correct br ND seps s). Qed.
Print Assumptions C07_split_outside_brackets.

Example C07_example :
  split_outside_brackets (lit "x=[1,2],y=(3,[4,5]),z],,w,"%string) "," =
    [lit "x=[1,2]"%string; lit "y=(3,[4,5])"%string; lit "z]"%string; []; lit "w"%string]
  /\ split_outside_brackets (lit "a,[b,c"%string) "," = [lit "a"%string; lit "[b,c"%string].
Proof. vm_compute. split; reflexivity. Qed.

(** Escaped colons: words written with their colons escaped and joined by ':' are recovered. *)
Theorem C08_escaped_colons_round_trip : forall ws, ws <> [] ->
  all_but_last (fun w => ~ ends_in_backslash w) ws ->
  colon_words (join_on ":" (map escape ws)) = ws.
Proof. exact colon_words_escape. Qed.
Print Assumptions C08_escaped_colons_round_trip.

(** If a datagroup argument is accepted then: it has the compulsory parts, and each passed its check; every option
    stored is a known one; it passed its check, unless it was taken by the shortcut for a single declared option; and
    every optional piece given is [name=text] for a known option whose check passed (or is the shortcut's piece). *)
Theorem C08_accepted_values_checked_partial : forall (V : Type) (options : list (str * checker V)) comp input d,
  NoDup (map fst options) -> comp <= length options ->
  (forall j nm chk w, nth_error options j = Some (nm, chk) -> chk w <> Raises IndexError) ->
  parse_one options comp input = Ok d ->
  (length (colon_words input) = comp \/ length (colon_words input) = comp + 1)
  /\ (forall i nm chk, i < comp -> nth_error options i = Some (nm, chk) ->
        exists w v, nth_error (colon_words input) i = Some w /\ chk w = Ok v /\ dict_get d nm = Some (Checked v))
  /\ (forall i nm chk st, comp <= i -> nth_error options i = Some (nm, chk) -> dict_get d nm = Some st ->
        (exists v, st = Checked v /\ exists p, In p (pieces_of comp input) /\ gives nm chk p v)
        \/ (exists s, st = Raw s /\ length options = comp + 1))
  /\ (forall k st, dict_get d k = Some st -> In k (map fst options))
  /\ (forall p, In p (pieces_of comp input) ->
        (exists i nm chk v, comp <= i /\ nth_error options i = Some (nm, chk) /\ gives nm chk p v)
        \/ (length options = comp + 1 /\ pieces_of comp input = [p])).
Proof. exact (fun V options comp input d => parse_one_ok options comp input d). Qed.
Print Assumptions C08_accepted_values_checked_partial.

(** Conversely, with two or more declared options, distinct known options whose checks pass are accepted in any order, each
    stored with its checked value. *)
Theorem C08_valid_options_accepted : forall (V : Type) (options : list (str * checker V)) comp input
    (kws : list (str * (str * V))),
  NoDup (map fst options) -> comp + 2 <= length options ->
  (length (colon_words input) = comp \/ length (colon_words input) = comp + 1) ->
  (forall i nm chk w, i < comp -> nth_error options i = Some (nm, chk) -> nth_error (colon_words input) i = Some w ->
     exists v, chk w = Ok v) ->
  pieces_of comp input = map fst kws ->
  NoDup (map (fun x => fst (snd x)) kws) ->
  (forall p k w, In (p, (k, w)) kws -> good_piece options comp p k w) ->
  exists d, parse_one options comp input = Ok d /\ forall p k w, In (p, (k, w)) kws -> dict_get d k = Some (Checked w).
Proof. exact (fun V options comp input kws => parse_one_complete options comp input kws). Qed.
Print Assumptions C08_valid_options_accepted.

(** The option tables of get_basic_datagroups / get_eval_datagroups (parse.py:425-437, 491-503) have one optional entry,
    [product]; here its check rejects everything. *)
Definition reject_all : checker str := fun _ => Raises ParserError.
Definition basic_table : list (str * checker str) :=
  [(lit "variables"%string, @Ok str); (lit "filenames"%string, @Ok str); (lit "product"%string, reject_all)].
(** Finding: with a single declared option the value is stored without ever being checked. *)
Theorem C08_single_option_unchecked_refuted : exists input d,
  parse_one basic_table 2 input = Ok d
  /\ dict_get d (lit "product"%string) = Some (Raw (lit "Nonsense"%string))
  /\ forall w v, reject_all w <> Ok v.
Proof.
  exists (lit "v:f:product=Nonsense"%string). eexists. split; [vm_compute; reflexivity|].
  split; [vm_compute; reflexivity|]. discriminate.
Qed.
Print Assumptions C08_single_option_unchecked_refuted.

Definition plot_like_table : list (str * checker str) :=
  [(lit "variables"%string, @Ok str); (lit "filenames"%string, @Ok str); (lit "color"%string, @Ok str);
   (lit "label"%string, @Ok str); (lit "product"%string, reject_all)].
Example C08_example :
  parse_one plot_like_table 2 (lit "v:C\:/f:label=(a,b),color=red"%string) =
    Ok [(lit "variables"%string, Checked (lit "v"%string)); (lit "filenames"%string, Checked (lit "C:/f"%string));
        (lit "color"%string, Checked (lit "red"%string)); (lit "label"%string, Checked (lit "(a,b)"%string))]
  /\ parse_one plot_like_table 2 (lit "v:f:product=x"%string) = Raises ParserError
  /\ parse_one plot_like_table 2 (lit "v:f:colour=red"%string) = Raises InvalidCommandLineOptionError
  /\ parse_one plot_like_table 2 (lit "v"%string) = Raises ParserError
  /\ NoDup (map fst plot_like_table)
  /\ pieces_of 2 (lit "v:C\:/f:label=(a,b),color=red"%string) = [lit "label=(a,b)"%string; lit "color=red"%string]
  /\ good_piece plot_like_table 2 (lit "color=red"%string) (lit "color"%string) (lit "red"%string).
Proof.
  repeat match goal with |- _ /\ _ => split end; try (vm_compute; reflexivity).
  - vm_compute map. repeat constructor; simpl; intuition discriminate.
  - exists 2, (@Ok str), (lit "red"%string). repeat split; auto. exists []. vm_compute. reflexivity.
Qed.

(** Aliases: on success, every specification "v" or "v=a" gave its variable and alias in place, and all aliases of all
    groups together are distinct; it fails exactly on a malformed specification or a repeated alias. *)
Theorem C09_aliases_unique : forall groups,
  match set_aliases groups with
  | Ok r => length r = length groups /\
      (forall i g vs als, nth_error groups i = Some g -> nth_error r i = Some (vs, als) ->
        length vs = length g /\ length als = length g /\
        forall j spec, nth_error g j = Some spec ->
          exists v a, nth_error vs j = Some v /\ nth_error als j = Some a /\ names_variable spec v a)
      /\ NoDup (flat_map snd r)
  | Raises e => e = ParserError /\
      ((exists g spec, In g groups /\ In spec g /\ forall v a, ~ names_variable spec v a)
       \/ exists r, alias_groups groups = Ok r /\ ~ NoDup (flat_map snd r))
  end.
Proof. exact set_aliases_ok. Qed.
Print Assumptions C09_aliases_unique.

Example C09_example :
  set_aliases [[lit "a=x"%string; lit "b"%string]; [lit "a"%string]] =
    Ok [([lit "a"%string; lit "b"%string], [lit "x"%string; lit "b"%string]); ([lit "a"%string], [lit "a"%string])]
  /\ set_aliases [[lit "a=b"%string]; [lit "b"%string]] = Raises ParserError
  /\ set_aliases [[lit "a="%string]] = Raises ParserError.
Proof. vm_compute. repeat split. Qed.

(** The overwrite question is answered "go on" exactly with consent. *)
Theorem C10_overwrite_needs_consent : forall env force out, exists_and_no_overwrite env force out = Go <->
  env_isfile env out = false \/ force = true
  \/ (env_overwrite env <> [] /\ lower (env_overwrite env) <> lit "false"%string)
  \/ (env_overwrite env = [] /\ answers_yes (env_answers env)).
Proof. exact consent. Qed.
Print Assumptions C10_overwrite_needs_consent.

(** A command goes on with output [out] only with consent for [out] itself, [out] being the name given (after an
    optional "variable:" prefix) with the default extension if it had none; and [out] is none of the input files. *)
Theorem C10_validated_output : forall env force ext output inputs var out,
  validate_output_file env force ext output inputs = Proceed var out ->
  (env_isfile env out = false \/ force = true
   \/ (env_overwrite env <> [] /\ lower (env_overwrite env) <> lit "false"%string)
   \/ (env_overwrite env = [] /\ answers_yes (env_answers env)))
  /\ (forall f, In f inputs -> ~ (env_exists env out = true /\ env_samefile env out f = true))
  /\ (exists out0, (output = out0 /\ var = None /\ ~ In ":"%char output
                    \/ exists v, output = v ++ ":"%char :: out0 /\ var = Some v)
        /\ (out = out0 /\ env_has_ext env out0 = true \/ out = out0 ++ ext /\ env_has_ext env out0 = false)).
Proof. exact validate_output_ok. Qed.
Print Assumptions C10_validated_output.

Definition ex_env (ov : str) (ans : list str) : environment :=
  mkEnv (fun _ => true) (fun _ => true) str_eqb (has_char "."%char) ov ans.
Example C10_example :
  validate_output_file (ex_env [] [lit "maybe"%string; lit "y"%string]) false (lit ".nc"%string) (lit "v:o"%string) [lit "in.nc"%string]
    = Proceed (Some (lit "v"%string)) (lit "o.nc"%string)
  /\ validate_output_file (ex_env [] [lit "Y"%string; []]) false (lit ".nc"%string) (lit "o.nc"%string) [] = ExitNoOp
  /\ validate_output_file (ex_env (lit "False"%string) []) false (lit ".nc"%string) (lit "o.nc"%string) [] = ExitNoOp
  /\ validate_output_file (ex_env [] []) true (lit ".nc"%string) (lit "in"%string) [lit "in.nc"%string] = ErrorExit.
Proof. vm_compute. repeat split. Qed.

(** "method[arg,...,arg]" gives the method name and the key=value dictionary of the arguments; a bare name, no arguments. *)
Theorem C56_method_and_args : forall name args,
  plain_word name -> args <> [] -> Forall plain_word args ->
  extract_method_and_args (method_text name args) = (name, parse_key_val_list args).
Proof. exact extract_method_spec. Qed.
Print Assumptions C56_method_and_args.
Theorem C56_bare_method : forall name, plain_word name -> extract_method_and_args name = (name, []).
Proof. exact extract_method_bare. Qed.
Print Assumptions C56_bare_method.
(** No text is lost or reordered by the multi-separator split. *)
Theorem C56_multi_split_keeps_text : forall s seps, nonblank (multi_split s seps) = nonblank (split_any seps s).
Proof. exact multi_split_nonblank. Qed.
Print Assumptions C56_multi_split_keeps_text.
(** Finding: blanks are not all removed (removal while iterating), so "bin[]" gets an argument with an empty name. *)
Theorem C56_blanks_removed_refuted :
  multi_split (lit "a,,,b"%string) [","%char] = [lit "a"%string; []; lit "b"%string]
  /\ extract_method_and_args (lit "bin[]"%string) = (lit "bin"%string, [([], VTrue)]).
Proof. exact multi_split_keeps_blanks. Qed.
Print Assumptions C56_blanks_removed_refuted.

Example C56_example :
  plain_word (lit "SepConstraint"%string) /\ Forall plain_word [lit "h_sep=10"%string; lit "missing"%string]
  /\ method_text (lit "SepConstraint"%string) [lit "h_sep=10"%string; lit "missing"%string] = lit "SepConstraint[h_sep=10,missing]"%string.
Proof. repeat split; try (repeat constructor; vm_compute; intuition discriminate); vm_compute; intuition discriminate. Qed.
