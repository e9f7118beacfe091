(** What a run of the program tells and how it ends, said independently of RunModel's functions. *)
From Coq Require Import String.
From Verif Require Import Base PyStr TopModel TopSpec RunModel.
From Coq Require Import List Ascii.
Import ListNotations.
Open Scope string_scope. Open Scope list_scope. Open Scope nat_scope. Notation length := List.length.

(** the message of an exception *)
Inductive says : raised -> str -> Prop :=
| says_text s : says (Other [Text s]) s
| says_nothing : says (Other []) []
| says_value t r : says (Other [Value t r]) t
| says_key t r : says (KeyRaised [Value t r]) r
| says_word s : ~ In "'"%char s -> ~ In "\"%char s -> (forall c, In c ["009"; "010"; "013"]%char -> ~ In c s) -> says (KeyRaised [Text s]) (lit "'" ++ s ++ lit "'")
| says_os n m : says (OSRaised n m None) (lit "[Errno " ++ n ++ lit "] " ++ m)
| says_file n m f : ~ In "'"%char f -> ~ In "\"%char f -> (forall c, In c ["009"; "010"; "013"]%char -> ~ In c f) ->
    says (OSRaised n m (Some f)) (lit "[Errno " ++ n ++ lit "] " ++ m ++ lit ": '" ++ f ++ lit "'")
| says_printable m : says (Printable m) m
(* the reasons of a FileFormatError are not in its message *)
| says_format reasons : says (file_format_error reasons []) (lit "((), {})")
| says_format_one reasons t r : says (file_format_error reasons [Value t r]) (lit "((" ++ r ++ lit ",), {})")
| says_format_two reasons t r t' r' : says (file_format_error reasons [Value t r; Value t' r']) (lit "((" ++ r ++ lit ", " ++ r' ++ lit "), {})")
| says_two t r t' r' : says (Other [Value t r; Value t' r']) (lit "(" ++ r ++ lit ", " ++ r' ++ lit ")")
| says_memory : says OutOfMemory (lit "Not enough memory. Please either reduce the amount of data, increase the swap space available on your machine or use a machine with more memory (for example the JASMIN facility).").

(** levels in their order, and their words *)
Definition levels : list level := [DEBUG; INFO; WARNING; ERROR].
Definition reaches (threshold l : level) : Prop :=
  match threshold with DEBUG => In l [DEBUG; INFO; WARNING; ERROR] | INFO => In l [INFO; WARNING; ERROR] | WARNING => In l [WARNING; ERROR] | ERROR => In l [ERROR] end.
Definition word (l : level) : string := match l with DEBUG => "DEBUG" | INFO => "INFO" | WARNING => "WARNING" | ERROR => "ERROR" end.
(** the level that options after the command ask for: -q errors only, -v more, -v -v everything; otherwise warnings and errors *)
Definition nverbose (fs : list flag) : nat := count_occ (fun a b : flag => ltac:(decide equality)) fs Verbose.
Inductive asks (fs : list flag) : level -> Prop :=
| asks_quiet : In Quiet fs -> asks fs ERROR
| asks_more : ~ In Quiet fs -> nverbose fs = 1 -> asks fs INFO
| asks_all : ~ In Quiet fs -> nverbose fs = 2 -> asks fs DEBUG
| asks_usual : ~ In Quiet fs -> nverbose fs <> 1 -> nverbose fs <> 2 -> asks fs WARNING.
Definition compatible (fs : list flag) : Prop := ~ (In Quiet fs /\ In Verbose fs).

(** a line break *)
Definition nl : str := ["010"%char].
Section Streams.
Variable stamp : nat -> str.
(** What the screen (stdout) gets of a list of actions: what is printed, and a dated line for every record that reaches the level.  n: how many records there were before *)
Inductive on_screen (threshold : level) : nat -> list action -> str -> Prop :=
| screen_end n : on_screen threshold n [] []
| screen_print n t l o : on_screen threshold n l o -> on_screen threshold n (Print t :: l) (t ++ nl ++ o)
| screen_complain n t l o : on_screen threshold n l o -> on_screen threshold n (Complain t :: l) o
| screen_record n v p m l o : reaches threshold v -> on_screen threshold (n + 1) l o -> on_screen threshold n (Record_ v p m :: l) (stamp n ++ lit " - " ++ lit (word v) ++ lit " - " ++ m ++ nl ++ o)
| screen_quiet n v p m l o : ~ reaches threshold v -> on_screen threshold (n + 1) l o -> on_screen threshold n (Record_ v p m :: l) o.
(** what the log file gets: every record, with its place *)
Inductive in_log : nat -> list action -> str -> Prop :=
| log_end n : in_log n [] []
| log_print n t l o : in_log n l o -> in_log n (Print t :: l) o
| log_complain n t l o : in_log n l o -> in_log n (Complain t :: l) o
| log_record n v p m l o : in_log (n + 1) l o -> in_log n (Record_ v p m :: l) (stamp n ++ lit " - " ++ lit (word v) ++ lit " - " ++ p ++ lit " - " ++ m ++ nl ++ o).
End Streams.
(** what stderr gets: only complaints, or (without a log) the warnings and errors as well; and what is printed *)
Inductive complaints (logless : bool) : list action -> str -> Prop :=
| complaints_end : complaints logless [] []
| complaints_print t l o : complaints logless l o -> complaints logless (Print t :: l) o
| complaints_made t l o : complaints logless l o -> complaints logless (Complain t :: l) (t ++ o)
| complaints_record v p m l o : logless = true -> In v [WARNING; ERROR] -> complaints logless l o -> complaints logless (Record_ v p m :: l) (lit (word v) ++ lit ":root:" ++ m ++ nl ++ o)
| complaints_other v p m l o : ~ (logless = true /\ In v [WARNING; ERROR]) -> complaints logless l o -> complaints logless (Record_ v p m :: l) o.
Inductive prints : list action -> str -> Prop :=
| prints_end : prints [] []
| prints_print t l o : prints l o -> prints (Print t :: l) (t ++ nl ++ o)
| prints_other a l o : (forall t, a <> Print t) -> prints l o -> prints (a :: l) o.

(** What is done about an exception: nothing for exit(n) and an interrupt; otherwise the message goes to stderr and to the log, with the trace, and the status is 1 *)
Definition report (trace m : str) : list action :=
  [Complain (m ++ nl); Record_ DEBUG (lit "cis_main : 22") (m ++ nl); Record_ DEBUG (lit "cis_main : 23") trace; Record_ ERROR (lit "cis_main : 24") (m ++ lit " - check cis.log for details" ++ nl)].
Inductive reported (trace : str) : raised -> list action -> ending -> Prop :=
| reported_exit n : reported trace (SystemExit n) [] (Status n)
| reported_interrupt : reported trace Interrupt [] (Uncaught Interrupt)
| reported_message e m : says e m -> reported trace e (report trace m) (Status 1).
(** What happens in a run of the command c, whose routine is r: its arguments are validated; if that succeeds, the run is announced in the log and the command is run *)
Definition announced (w : world) (c : string) : list action :=
  [Record_ DEBUG (lit "cis_main : 252") (lit "CIS started at: " ++ w_now w); Record_ DEBUG (lit "cis_main : 253") (lit "Running command: " ++ lit c);
   Record_ DEBUG (lit "cis_main : 254") (lit "With the following arguments: " ++ w_arguments w)].
Inductive story (w : world) (c : string) (r : routine) : list action -> ending -> Prop :=
| succeeds va ca : w_validate w r = (va, inl tt) -> w_command w r = (ca, inl tt) -> story w c r (va ++ announced w c ++ ca) (Status 0)
| refused va e l x : w_validate w r = (va, inr e) -> reported (w_trace w) e l x -> story w c r (va ++ l) x
| fails va ca e l x : w_validate w r = (va, inl tt) -> w_command w r = (ca, inr e) -> reported (w_trace w) e l x -> story w c r (va ++ announced w c ++ ca ++ l) x.
(** the full name of a routine *)
Definition full_name (r : routine) : string :=
  match r with Plot => "plot" | Info => "info" | Collocate => "collocate" | Aggregate => "aggregate" | Subset => "subset" | Collapse => "collapse" | Eval => "eval" | Stats => "stats" | Version => "version" end.
Definition ends_with (t s : str) : Prop := exists b, s = b ++ t.
Definition occurs (t s : str) : Prop := exists b a, s = b ++ t ++ a.
(** a line that argparse accepts, the routine it invokes and the level of the screen it asks for (options of a command other than version stand after it, C90) *)
Inductive accepted (l : line) : routine -> level -> Prop :=
| accepted_command c r lv : l_command l = Some c -> invokes c r -> r <> Version -> compatible (l_before l) -> compatible (l_after l) -> asks (l_after l) lv -> accepted l r lv
| accepted_version c lv : l_command l = Some c -> invokes c Version -> compatible (l_before l) -> l_after l = [] -> asks (l_before l) lv -> accepted l Version lv.
