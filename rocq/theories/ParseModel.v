(** Model of the command-line argument grammar of cis/parse.py. *)
From Verif Require Import Base PyStr FileListModel.

Definition ascii_in (c : ascii) (l : list ascii) : bool := existsb (Ascii.eqb c) l.

(** dict of open bracket to close bracket *)
Fixpoint bracket_get (c : ascii) (b : list (ascii * ascii)) : option ascii :=
  match b with
  | [] => None
  | (o, cl) :: b' => if Ascii.eqb c o then Some cl else bracket_get c b'
  end.

(** ** split_outside_brackets, parse.py:635-666 *)
(** loop variables of parse.py:642-645 *)
Record bstate := mkB { match_brackets : list ascii; match_bracket : option ascii; in_brackets : nat; sep_idxs : list nat }.

(** parse.py:646-656, one turn of the loop.  [match_brackets] is kept with its end at the head of the list. *)
Definition bstep (seps : list ascii) (brackets : list (ascii * ascii)) (st : bstate) (idx : nat) (c : ascii) : bstate :=
  match bracket_get c brackets with
  | Some close =>
      mkB (if 0 <? in_brackets st
           then match match_bracket st with Some m => m :: match_brackets st | None => match_brackets st end
           else match_brackets st)
          (Some close) (in_brackets st + 1) (sep_idxs st)
  | None =>
      if (0 <? in_brackets st) && (match match_bracket st with Some m => Ascii.eqb c m | None => false end) then
        let n := in_brackets st - 1 in
        if 0 <? n then
          match match_brackets st with
          | m :: ms => mkB ms (Some m) n (sep_idxs st)
          | [] => mkB [] None n (sep_idxs st)   (* list.pop() from an empty list; shown unreachable *)
          end
        else mkB (match_brackets st) (match_bracket st) n (sep_idxs st)
      else if ascii_in c seps && (in_brackets st =? 0) then
        mkB (match_brackets st) (match_bracket st) (in_brackets st) (sep_idxs st ++ [idx])
      else st
  end.
Fixpoint bloop (seps : list ascii) (brackets : list (ascii * ascii)) (st : bstate) (idx : nat) (s : str) : bstate :=
  match s with
  | [] => st
  | c :: s' => bloop seps brackets (bstep seps brackets st idx c) (S idx) s'
  end.

(** Python slice [s[a:b]] *)
Definition slice (s : str) (a b : nat) : str := firstn (b - a) (skipn a s).

(** parse.py:658-665 *)
Fixpoint cut_loop (s : str) (start_idx : nat) (idxs : list nat) (output : list str) : list str :=
  match idxs with
  | [] => if start_idx <? length s then output ++ [skipn start_idx s] else output
  | idx :: idxs' => cut_loop s (idx + 1) idxs' (output ++ [slice s start_idx idx])
  end.
Definition split_outside_brackets_gen (s : str) (seps : list ascii) (brackets : list (ascii * ascii)) : list str :=
  let st := bloop seps brackets (mkB [] None 0 []) 0 s in
  cut_loop s 0 (sep_idxs st) [].

Definition default_brackets : list (ascii * ascii) := [("["%char, "]"%char); ("("%char, ")"%char)].
Definition split_outside_brackets (s : str) (sep : ascii) : list str :=
  split_outside_brackets_gen s [sep] default_brackets.

(** ** Splitting at unescaped colons, parse.py:575:
    [re.sub(r'([\\]):', r':', word) for word in re.split(r'(?<!\\):', input_string)]. *)
Fixpoint colon_split (prev_backslash : bool) (s : str) : list str :=
  match s with
  | [] => [[]]
  | a :: s' =>
      let b := Ascii.eqb a "\"%char in
      if Ascii.eqb a ":"%char && negb prev_backslash then [] :: colon_split b s'
      else match colon_split b s' with
           | [] => [[a]]
           | p :: ps => (a :: p) :: ps
           end
  end.
(** [re.sub(r'\\:', ':')] *)
Fixpoint unescape (s : str) : str :=
  match s with
  | [] => []
  | a :: s' =>
      match s' with
      | b :: s'' => if Ascii.eqb a "\"%char && Ascii.eqb b ":"%char then b :: unescape s'' else a :: unescape s'
      | [] => [a]
      end
  end.
Definition colon_words (s : str) : list str := map unescape (colon_split false s).

(** ** parse_colon_and_comma_separated_arguments, parse.py:562-632, for one input string *)
Section Options.
Context {V : Type}.
(** A checker takes the text and returns the checked value or raises ([parser.error] = [ParserError]). *)
Definition checker := str -> res V.

(** What [input_dict] may hold for an option. *)
Inductive stored := Checked (v : V) | Raw (s : str) | NoneVal.

Fixpoint remove_first (j : str) (l : list str) : list str :=
  match l with
  | [] => []
  | x :: l' => if str_eq_dec x j then l' else x :: remove_first j l'
  end.

(** parse.py:588-594; [i] counts up, [option] is the shrinking list of names. *)
Fixpoint compulsory_loop (n i : nat) (options : list (str * checker)) (split_input : list str)
         (option : list str) (d : list (str * stored)) : res (list str * list (str * stored)) :=
  match n with
  | 0 => Ok (option, d)
  | S n' =>
      let step :=
        match nth_error split_input i, nth_error option 0, nth_error options i with
        | Some current, Some name, Some (_, chk) =>
            match chk current with
            | Ok v => Ok (tl option, dict_set d name (Checked v))
            | Raises IndexError =>
                match nth_error option i with Some nm => Ok (option, dict_set d nm NoneVal) | None => Raises IndexError end
            | Raises e => Raises e
            end
        | _, _, _ => match nth_error option i with
                     | Some nm => Ok (option, dict_set d nm NoneVal) | None => Raises IndexError end
        end in
      match step with
      | Ok (o', d') => compulsory_loop n' (S i) options split_input o' d'
      | Raises e => Raises e
      end
  end.

(** parse.py:618-624, the inner [for j in split_input_comma] loop for one option: iteration by index over the list
    while elements are removed from it. *)
Fixpoint option_loop (fuel pos : nat) (name : str) (chk : option checker) (pieces : list str) (d : list (str * stored))
  : res (list str * list (str * stored)) :=
  match nth_error pieces pos with
  | None => Ok (pieces, d)
  | Some j =>
      match fuel with
      | 0 => Raises OutOfFuel
      | S fuel' =>
          match split_outside_brackets j "=" with
          | [] => Raises IndexError
          | k :: rest =>
              if str_eq_dec k name then
                match chk, rest with
                | Some f, v :: _ =>
                    match f v with
                    | Ok w => option_loop fuel' (S pos) name chk (remove_first j pieces) (dict_set d name (Checked w))
                    | Raises e => Raises e
                    end
                | _, _ => Raises IndexError
                end
              else option_loop fuel' (S pos) name chk pieces d
          end
      end
  end.

(** parse.py:617: [for i, option in enumerate(option)], checker [options[i + compulsory_args]]. *)
Fixpoint options_loop (i comp : nat) (options : list (str * checker)) (names : list str) (pieces : list str)
         (d : list (str * stored)) : res (list str * list (str * stored)) :=
  match names with
  | [] => Ok (pieces, d)
  | name :: names' =>
      match option_loop (length pieces) 0 name
              (match nth_error options (i + comp) with Some (_, c) => Some c | None => None end) pieces d with
      | Ok (pieces', d') => options_loop (S i) comp options names' pieces' d'
      | Raises e => Raises e
      end
  end.

(** parse.py:605-615: the shortcut for a single optional argument *)
Definition shortcut (option pieces : list str) (d : list (str * stored))
  : res (list str * list str * list (str * stored)) :=
  match option, pieces with
  | [name], [piece] =>
      match split_outside_brackets piece "=" with
      | [v] => Ok ([], [], dict_set d name (Raw v))
      | [k; v] => if str_eq_dec name k then Ok ([], [], dict_set d name (Raw v)) else Ok (option, pieces, d)
      | _ => Raises InvalidCommandLineOptionError
      end
  | _, _ => Ok (option, pieces, d)
  end.

Definition parse_one (options : list (str * checker)) (comp : nat) (input : str) : res (list (str * stored)) :=
  let split_input := colon_words input in
  if length split_input <? comp then Raises ParserError
  else if comp + 1 <? length split_input then Raises ParserError
  else
    match compulsory_loop comp 0 options split_input (map fst options) [] with
    | Raises e => Raises e
    | Ok (option, d) =>
        let pieces := if length split_input =? comp + 1
                      then split_outside_brackets (last split_input []) "," else [] in
        if length option <? length pieces then Raises InvalidCommandLineOptionError
        else
          match shortcut option pieces d with
          | Raises e => Raises e
          | Ok (option', pieces', d') =>
              match options_loop 0 comp options option' pieces' d' with
              | Raises e => Raises e
              | Ok ([], d'') => Ok d''
              | Ok (_, _) => Raises InvalidCommandLineOptionError
              end
          end
    end.
End Options.
Arguments stored : clear implicits.
Arguments checker : clear implicits.

(** ** multi_split, parse.py:679-696 *)
Fixpoint multi_split_seps (pieces : list str) (seps : list ascii) : list str :=
  match seps with
  | [] => pieces
  | sep :: seps' => multi_split_seps (flat_map (split_on sep) pieces) seps'
  end.
Fixpoint index_of_empty (l : list str) : nat :=
  match l with [] => 0 | [] :: _ => 0 | _ :: l' => S (index_of_empty l') end.
Fixpoint remove_at {A} (i : nat) (l : list A) : list A :=
  match l, i with [], _ => [] | _ :: l', 0 => l' | x :: l', S i' => x :: remove_at i' l' end.
(** parse.py:691-694: [for i in res: if not i: res.pop(res.index(i))] *)
Fixpoint drop_blanks (fuel pos : nat) (l : list str) : list str :=
  match fuel with
  | 0 => l
  | S fuel' =>
      match nth_error l pos with
      | None => l
      | Some [] => drop_blanks fuel' (S pos) (remove_at (index_of_empty l) l)
      | Some _ => drop_blanks fuel' (S pos) l
      end
  end.
Definition multi_split (s : str) (seps : list ascii) : list str :=
  let pieces := multi_split_seps [s] seps in drop_blanks (length pieces) 0 pieces.

(** parse.py:669-676 *)
Definition extract_method_and_args (arguments : str) : str * list (str * optval) :=
  let elements := multi_split arguments ["["%char; ","%char; "]"%char] in
  (nth 0 elements [], parse_key_val_list (tl elements)).

(** ** _set_aliases_for_datagroups, parse.py:714-749 *)
(** a datagroup before: its list of variable specifications; after: its variables and aliases *)
Fixpoint alias_vars (specs : list str) : res (list str * list str) :=
  match specs with
  | [] => Ok ([], [])
  | variable :: rest =>
      let parts := split_on "=" variable in
      let one :=
        match parts with
        | [p] => match p with [] => Raises ParserError | _ => Ok (variable, variable) end
        | [p; q] => match p, q with _ :: _, _ :: _ => Ok (p, q) | _, _ => Raises ParserError end
        | _ => Raises ParserError
        end in
      match one with
      | Raises e => Raises e
      | Ok (v, a) => match alias_vars rest with Ok (vs, als) => Ok (v :: vs, a :: als) | Raises e => Raises e end
      end
  end.
Fixpoint alias_groups (groups : list (list str)) : res (list (list str * list str)) :=
  match groups with
  | [] => Ok []
  | g :: gs => match alias_vars g with
               | Raises e => Raises e
               | Ok va => match alias_groups gs with Ok r => Ok (va :: r) | Raises e => Raises e end
               end
  end.
(** [len(set(all_aliases)) == len(all_aliases)] *)
Definition all_unique (l : list str) : bool := Nat.eqb (length (nodup str_eq_dec l)) (length l).
Definition set_aliases (groups : list (list str)) : res (list (list str * list str)) :=
  match alias_groups groups with
  | Raises e => Raises e
  | Ok r => if all_unique (flat_map snd r) then Ok r else Raises ParserError
  end.

(** ** Output file validation, parse.py:791-853 *)
Record environment := mkEnv {
  env_isfile : str -> bool;         (* os.path.isfile *)
  env_exists : str -> bool;         (* os.path.exists *)
  env_samefile : str -> str -> bool;(* os.path.samefile *)
  env_has_ext : str -> bool;        (* os.path.splitext(p)[1] is not empty *)
  env_overwrite : str;              (* CIS_FORCE_OVERWRITE, "" when unset *)
  env_answers : list str            (* the successive answers of the user at the prompt *)
}.

(** parse.py:820-823: [while overwrite not in ['y', 'n', '']: overwrite = input(..)], returning the last answer.
    Running out of answers is end of input ([EOFError]): the command stops. *)
Fixpoint prompt (answers : list str) : option str :=
  match answers with
  | [] => None
  | a :: rest => if str_eqb a (lit "y"%string) || (str_eqb a (lit "n"%string) || str_eqb a []) then Some a else prompt rest
  end.

Inductive decision := Stop | Go | Eof.
(** parse.py:811-827; [Stop] is the return value [True] ("exists and no overwrite"). *)
Definition exists_and_no_overwrite (env : environment) (force_overwrite : bool) (output : str) : decision :=
  if env_isfile env output then
    let overwrite_env := lower (env_overwrite env) in
    if force_overwrite then Go
    else match overwrite_env with
         | _ :: _ => if str_eqb overwrite_env (lit "false"%string) then Stop else Go
         | [] => match prompt (env_answers env) with
                 | None => Eof
                 | Some a => if str_eqb a (lit "y"%string) then Go else Stop
                 end
         end
  else Go.

(** parse.py:830-853 (the POSIX branch, where [os.path.samefile] exists). *)
Definition output_matches_input (env : environment) (output : str) (input_files : list str) : bool :=
  existsb (fun input_file => env_exists env output && env_samefile env output input_file) input_files.

Inductive outcome := Proceed (output_var : option str) (output : str) | ExitNoOp | ErrorExit.
(** parse.py:791-808 *)
Definition validate_output_file (env : environment) (force : bool) (default_ext output : str) (input_files : list str)
  : outcome :=
  let split :=
    if has_char ":"%char output then
      match split_on ":" output with [v; o] => Some (Some v, o) | _ => None end
    else Some (None, output) in
  match split with
  | None => ErrorExit
  | Some (var, out0) =>
      let out := if env_has_ext env out0 then out0 else out0 ++ default_ext in
      match exists_and_no_overwrite env force out with
      | Stop => ExitNoOp
      | Eof => ErrorExit
      | Go => if output_matches_input env out input_files then ErrorExit else Proceed var out
      end
  end.
