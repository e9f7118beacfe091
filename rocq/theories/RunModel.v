(** How a run of the program ends and what it tells: main, __error_occurred, parse_and_run_arguments and the commands that say something of their own (cis/cis_main.py 15-25, 102-171, 225-290),
    with the set-up of the messages (cis/logging.conf) and the texts of exceptions (cis/exceptions.py). *)
From Coq Require Import String.
From Verif Require Import Base PyStr FileListModel TopModel.
From Coq Require Import List Ascii.
Import ListNotations.
Open Scope string_scope. Open Scope list_scope. Open Scope nat_scope. Notation length := List.length.

(** *** exceptions and str() of them *)
Definition newline : str := ["010"%char].
Definition tick : ascii := "039"%char.      (* the single quote *)
Definition double : ascii := "034"%char.
(** Python's repr() of a text: in single quotes, unless the text has some and no double ones; the quote, the backslash, line feed, carriage return and tab are escaped.
    Simplified: the other unprintable characters, which are written in hexadecimal, are kept *)
Definition has (c : ascii) (s : str) : bool := existsb (fun d => if ascii_dec d c then true else false) s.
Definition escaped (q c : ascii) : str :=
  if ascii_dec c q then ["\"%char; c]
  else if ascii_dec c "\"%char then ["\"%char; c]
  else if ascii_dec c "010"%char then lit "\n"
  else if ascii_dec c "013"%char then lit "\r"
  else if ascii_dec c "009"%char then lit "\t"
  else [c].
Definition repr_text (s : str) : str :=
  let q := if has tick s && negb (has double s) then double else tick in [q] ++ flat_map (escaped q) s ++ [q].
(** the arguments of exceptions: texts, tuples, dictionaries without entries, and other values with their str() and repr() *)
Inductive arg := Text (s : str) | Tuple (l : list arg) | EmptyDict | Value (text repr : str).
Fixpoint sep_by (l : list str) : str := match l with [] => [] | [a] => a | a :: l => a ++ lit ", " ++ sep_by l end.
Definition tuple_text (l : list str) : str := match l with [a] => lit "(" ++ a ++ lit ",)" | _ => lit "(" ++ sep_by l ++ lit ")" end.
Fixpoint arg_repr (a : arg) : str :=
  match a with Text s => repr_text s | Tuple l => tuple_text (map arg_repr l) | EmptyDict => lit "{}" | Value _ r => r end.
Definition arg_text (a : arg) : str := match a with Text s => s | Value t _ => t | _ => arg_repr a end.
(** The classes that matter: those with a __str__ of their own (KeyError, OSError, UserPrintableException exceptions.py:89-104), MemoryError, and the two that are not Exceptions.  Other: any other *)
Inductive raised := Other (args : list arg) | KeyRaised (args : list arg) | OSRaised (errno : str) (strerror : str) (filename : option str) | Printable (message : str)
                 | OutOfMemory | Interrupt | SystemExit (status : nat).
(** BaseException.__str__ and the others' *)
Definition base_str (args : list arg) : str := match args with [] => [] | [a] => arg_text a | _ => tuple_text (map arg_repr args) end.
Definition str_of (e : raised) : str :=
  match e with
  | Other args => base_str args
  | KeyRaised [a] => arg_repr a
  | KeyRaised args => base_str args
  | OSRaised n m f => lit "[Errno " ++ n ++ lit "] " ++ m ++ match f with Some f => lit ": " ++ repr_text f | None => [] end
  | Printable m => m
  | OutOfMemory | Interrupt | SystemExit _ => []
  end.
(** FileFormatError(error_list, args...): exceptions.py:84-86 gives the tuple of the further arguments and the dictionary of the named ones to Exception, and keeps error_list as an attribute *)
Definition file_format_error (error_list : list str) (further : list arg) : raised := Other [Tuple further; EmptyDict].
(** dictionary look-up of None, list index out of range, an attribute that an object does not have: Python's texts *)
Definition key_none : raised := KeyRaised [Value (lit "None") (lit "None")].
Definition out_of_range : raised := Other [Text (lit "list index out of range")].
Definition no_attribute (class name : str) : raised := Other [Text (tick :: class ++ tick :: lit " object has no attribute " ++ tick :: name ++ [tick])].

(** *** messages.  Levels are those of TopModel *)
Definition rank (l : level) : nat := match l with DEBUG => 10 | INFO => 20 | WARNING => 30 | ERROR => 40 end.
Definition level_name (l : level) : str := match l with DEBUG => lit "DEBUG" | INFO => lit "INFO" | WARNING => lit "WARNING" | ERROR => lit "ERROR" end.
(** what is done while running: print, write to stderr, a record of the logging module with the place it is made at (module and line) *)
Inductive action := Print (s : str) | Complain (s : str) | Record_ (l : level) (place msg : str).
(** the handlers of the root logger: screen (with its level) and file, as logging.conf 4-6 has it; none, when the log could not be opened; or the one that logging.debug and the others add then
    (basicConfig: stderr, from WARNING) *)
Inductive handlers := Both (screen : level) | None_ | Basic.
Record state := mkState { s_handlers : handlers; s_out : str; s_err : str; s_log : str; s_records : nat }.
Section Run.
(** what the clock says for each record (asctime) *)
Variable stamp : nat -> str.
(** formatters, logging.conf 11-18 *)
Definition simple (n : nat) (l : level) (msg : str) : str := stamp n ++ lit " - " ++ level_name l ++ lit " - " ++ msg ++ newline.
Definition complex (n : nat) (l : level) (place msg : str) : str := stamp n ++ lit " - " ++ level_name l ++ lit " - " ++ place ++ lit " - " ++ msg ++ newline.
Definition record (l : level) (place msg : str) (s : state) : state :=
  match s_handlers s with
  | Both screen =>
      mkState (Both screen) (s_out s ++ (if rank screen <=? rank l then simple (s_records s) l msg else [])) (s_err s) (s_log s ++ complex (s_records s) l place msg) (S (s_records s))
  | _ => mkState Basic (s_out s) (s_err s ++ (if rank WARNING <=? rank l then level_name l ++ lit ":root:" ++ msg ++ newline else [])) (s_log s) (S (s_records s))
  end.
Definition perform (a : action) (s : state) : state :=
  match a with
  | Print t => mkState (s_handlers s) (s_out s ++ t ++ newline) (s_err s) (s_log s) (s_records s)
  | Complain t => mkState (s_handlers s) (s_out s) (s_err s ++ t) (s_log s) (s_records s)
  | Record_ l place msg => record l place msg s
  end.
Definition perform_all (l : list action) (s : state) : state := fold_left (fun s a => perform a s) l s.

(** *** procedures: they do things, then return something or raise *)
Definition proc (A : Type) := (list action * (A + raised))%type.
Definition done {A} (a : A) : proc A := ([], inl a).
Definition fail {A} (e : raised) : proc A := ([], inr e).
Definition doing (a : action) : proc unit := ([a], inl tt).
Definition next {A B} (p : proc A) (k : A -> proc B) : proc B :=
  match snd p with inl a => (fst p ++ fst (k a), snd (k a)) | inr e => (fst p, inr e) end.

(** __error_occurred, 15-25: trace is traceback.format_exc() (the text "NoneType: None" and a line feed when nothing is being handled) *)
Definition here (line : string) : str := lit "cis_main : " ++ lit line.
Definition error_occurred {A} (message trace : str) : proc A :=
  next (doing (Complain (message ++ newline))) (fun _ =>
  next (doing (Record_ DEBUG (here "22") (message ++ newline))) (fun _ =>
  next (doing (Record_ DEBUG (here "23") trace)) (fun _ =>
  next (doing (Record_ ERROR (here "24") (message ++ lit " - check cis.log for details" ++ newline))) (fun _ =>
  fail (SystemExit 1))))).
Definition no_trace : str := lit "NoneType: None" ++ newline.

(** *** commands with messages of their own.  D: data; the library calls are parameters *)
Section Commands.
Context {G D : Type}.
Variables (read : G -> proc D) (gridded : D -> bool) (class_name : D -> str) (save : D -> proc unit).
(** the check for one datagroup, 110-111, 133-134, 159-160 (datagroups[0]: no datagroup is an IndexError) *)
Definition only_one {A} (what : string) (groups : list G) (k : G -> proc A) : proc A :=
  match groups with
  | [] => fail out_of_range
  | [g] => k g
  | _ => error_occurred (lit what ++ lit " can only be performed on one data group") no_trace
  end.
(** subset_cmd, 102-121; do_subset: data.subset, None when nothing is left *)
Definition subset_cmd (do_subset : D -> proc (option D)) (groups : list G) : proc unit :=
  only_one "Subsetting" groups (fun g => next (read g) (fun d => next (do_subset d) (fun r =>
  match r with None => fail (Other [Text (lit "No output created - constraints exclude all data")]) | Some d => save d end))).
(** aggregate_cmd, 124-148; gridspec: some dimension of the grid has a specification *)
Definition deprecated : str := lit "The aggregate command is deprecated for GriddedData and will not be supported in future versions of CIS. Please use 'collapse' instead.".
Definition aggregate_cmd (gridspec : bool) (collapse aggregate : D -> proc D) (groups : list G) : proc unit :=
  only_one "Aggregation" groups (fun g => next (read g) (fun d =>
  next (if gridded d
        then next (doing (Record_ WARNING (here "140") deprecated)) (fun _ =>
             if gridspec then fail (Other [Text (lit "Grid specifications are not supported for Gridded aggregation.")]) else collapse d)
        else aggregate d) save)).
(** collapse_cmd, 151-171: ungridded data are complained of, then asked for what they do not have *)
Definition collapse_ungridded : str := lit "The collapse command can only be performed on gridded data. Please use 'aggregate' instead.".
Definition collapse_cmd (collapse : D -> proc D) (groups : list G) : proc unit :=
  only_one "Collapse" groups (fun g => next (read g) (fun d =>
  next (if gridded d then collapse d
        else next (doing (Record_ ERROR (here "166") collapse_ungridded)) (fun _ => fail (no_attribute (class_name d) (lit "collapsed")))) save)).
End Commands.
(** version_cmd, 225-226 *)
Definition version_cmd (version status : str) : proc unit := doing (Print (lit "Using CIS version: " ++ version ++ lit " (" ++ status ++ lit ")")).

(** *** parse_args, parse.py:981-1006, and parse_and_run_arguments, 240-258.  The world: argparse's complaint (usage and error: exit with 2); the validators and the commands;
    the time and the arguments as texts *)
Record world := mkWorld { w_usage : str; w_validate : routine -> proc unit; w_command : routine -> proc unit; w_now : str; w_arguments : str; w_trace : str }.
Variable w : world.
(** handlers[0].setLevel, parse.py:997-1002: what is left of the state, or an IndexError *)
Definition asks_level (g : globals) : bool := g_quiet g || match g_verbose g with Some 1 | Some 2 => true | _ => false end.
Definition set_level (g : globals) (h : handlers) : handlers + raised :=
  if asks_level g then match h with Both _ => inl (Both (screen_level g)) | None_ => inr out_of_range | Basic => inl Basic end else inl h.
Definition step_proc {A} (p : proc A) (s : state) : state * (A + raised) := (perform_all (fst p) s, snd p).
(** the commands' debug messages, 252-254 (a record's place is the first line of its statement) *)
Definition introduction (name : str) : proc unit :=
  next (doing (Record_ DEBUG (here "252") (lit "CIS started at: " ++ w_now w))) (fun _ =>
  next (doing (Record_ DEBUG (here "253") (lit "Running command: " ++ name))) (fun _ =>
  doing (Record_ DEBUG (here "254") (lit "With the following arguments: " ++ w_arguments w)))).
(** A line of the user: options before the command, the command, options after it (the further words are in the world) *)
Record line := mkLine { l_before : list flag; l_command : option str; l_after : list flag }.
Definition with_handlers (h : handlers) (s : state) : state := mkState h (s_out s) (s_err s) (s_log s) (s_records s).
Definition argparse_error : proc unit := next (doing (Complain (w_usage w))) (fun _ => fail (SystemExit 2)).
Definition command_name (c : str) : str := match dict_get aliases c with Some n => n | None => c end.
Definition parse_and_run (l : line) (s : state) : state * (unit + raised) :=
  match parse_globals (l_before l) (l_command l) (l_after l), l_command l with
  | Raises _, _ => step_proc argparse_error s
  | Ok g, None => match set_level g (s_handlers s) with inr e => (s, inr e) | inl h => (with_handlers h s, inr key_none) end
  | Ok g, Some c =>
      match dispatch (Some c) with
      | Raises _ => step_proc argparse_error s
      | Ok (v, r) =>
          match set_level g (s_handlers s) with
          | inr e => (s, inr e)
          | inl h => step_proc (next (w_validate w v) (fun _ => next (introduction (command_name c)) (fun _ => w_command w r))) (with_handlers h s)
          end
      end
  end.

(** *** main, 261-286.  log_error: the text of the error when the log cannot be opened (fileConfig raises it when it makes the file's handler, and no handler is left).
    The end: the status of the program, or an exception that is not caught *)
Inductive ending := Status (n : nat) | Uncaught (e : raised).
Definition memory_text : str := lit "Not enough memory. Please either reduce the amount of data, increase the swap space available on your machine or use a machine with more memory (for example the JASMIN facility).".
Definition start (log_error : option str) : state :=
  let s := mkState (match log_error with None => Both WARNING | Some _ => None_ end) [] [] [] 0 in
  match log_error with None => s | Some e => perform (Print (lit "WARNING: Unable to write to the log: " ++ e)) s end.
Definition ended (r : unit + raised) : ending :=
  match r with inl _ => Status 0 | inr (SystemExit n) => Status n | inr e => Uncaught e end.
Definition main (log_error : option str) (l : line) : state * ending :=
  let (s, r) := parse_and_run l (start log_error) in
  match r with
  | inr OutOfMemory => let (s, r) := step_proc (error_occurred memory_text (w_trace w)) s in (s, ended r)
  | inr (SystemExit _ as e) | inr (Interrupt as e) => (s, ended (inr e))
  | inr e => let (s, r) := step_proc (error_occurred (str_of e) (w_trace w)) s in (s, ended r)
  | inl _ => (s, ended r)
  end.
End Run.
Arguments mkWorld : clear implicits.
