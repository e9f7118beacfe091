(** The words of a command and what they become: the option tables of cis/parse.py (48-66 and 90-256) as argparse reads them.  argparse is a library: it is modelled here after the
    parser of Python 2.7 to 3.11 (ArgumentParser._parse_known_args, _parse_optional, _get_option_tuples, consume_optional, consume_positionals, _match_arguments_partial, _get_values).
    Simplifications: words equal to two dashes are not modelled (they are refused here); every error of the parser is one outcome; help texts are left out; a word that ends in a
    line break is not taken for a negative number. *)
From Coq Require Import String.
From Verif Require Import Base PyStr FileListModel ProdModel.
From Coq Require Import List Ascii.
Import ListNotations.
Open Scope string_scope. Open Scope list_scope. Open Scope nat_scope. Notation length := List.length.

(** what the text of an option is: a type= or choices= of add_argument *)
Inductive kind := KText | KFloat | KInt | KDate | KDelta | KOneOf (l : list str).
(** the action of an option: action='store_true', 'store_false', 'count', 'help', nargs='?' or one value *)
Inductive act := StoreTrue | StoreFalse | CountUp | ShowHelp | Perhaps | One.
Section Parser.
(** what float, int, parse_as_number_or_datetime and parse_as_number_or_datetime_delta make of a text (C11, C12, C66); None: an error *)
Variable V : Type.
Variable read : kind -> str -> option V.
(** values of the namespace *)
Inductive val := VNone | VText (s : str) | VTexts (l : list str) | VRead (v : V) | VBool (b : bool) | VCount (n : nat).
(** an option: its spellings, its attribute, its action, its kind, its default (None: argparse.SUPPRESS, no attribute) and the attribute it excludes *)
Record opt := mkOpt { o_names : list str; o_dest : str; o_act : act; o_kind : kind; o_default : option val; o_against : option str }.
(** positional arguments: one text, nargs=1 (a list of one), nargs='+' *)
Inductive many := Single | ListOfOne | AtLeastOne.
Record parser := mkParser { p_options : list opt; p_positionals : list (str * many) }.

(** _option_string_actions *)
Definition spellings (p : parser) : list (str * opt) := flat_map (fun o => map (fun n => (n, o)) (o_names o)) (p_options p).
Definition find_option (p : parser) (n : str) : option opt := option_map snd (find (fun e : str * opt => str_eqb (fst e) n) (spellings p)).
(** arg_string.split('=', 1) *)
Fixpoint cut_eq (s : str) : option (str * str) :=
  match s with [] => None | c :: s => if ascii_dec c "=" then Some ([], s) else option_map (fun lr : str * str => (c :: fst lr, snd lr)) (cut_eq s) end.
(** _negative_number_matcher: a minus sign and digits, or a minus sign, perhaps digits, a point and digits *)
Definition digits (s : str) : bool := match s with [] => false | _ => forallb (fun c => (48 <=? nat_of_ascii c) && (nat_of_ascii c <=? 57)) s end.
Fixpoint decimals (s : str) : bool :=
  match s with [] => false | c :: s => if ascii_dec c "." then digits s else (48 <=? nat_of_ascii c) && (nat_of_ascii c <=? 57) && decimals s end.
Definition negative_number (s : str) : bool := match s with "-"%char :: s => digits s || decimals s | _ => false end.
(** a word is an argument or an option: the option, the spelling it was found under and the text attached to it *)
Inductive word := Arg (s : str) | Known (o : opt) (name : str) (attached : option str) | Unknown (s : str).
(** _get_option_tuples *)
Definition option_tuples (p : parser) (w : str) : list word :=
  match w with
  | "-"%char :: "-"%char :: _ =>
    let '(prefix, attached) := match cut_eq w with Some (l, r) => (l, Some r) | None => (w, None) end in
    map (fun e : str * opt => Known (snd e) (fst e) attached) (filter (fun e : str * opt => starts_with prefix (fst e)) (spellings p))
  | a :: b :: rest =>
    flat_map (fun e : str * opt => if str_eqb (fst e) [a; b] then [Known (snd e) (fst e) (Some rest)] else if starts_with w (fst e) then [Known (snd e) (fst e) None] else []) (spellings p)
  | _ => []
  end.
(** _parse_optional; Raises: the word is ambiguous *)
Definition classify (p : parser) (w : str) : res word :=
  match w with
  | "-"%char :: rest =>
    match find_option p w with
    | Some o => Ok (Known o w None)
    | None =>
      match rest with
      | [] => Ok (Arg w)
      | _ =>
        if str_eqb w (lit "--") then Raises ParserError else
        match (match cut_eq w with Some (l, r) => option_map (fun o => Known o l (Some r)) (find_option p l) | None => None end) with
        | Some k => Ok k
        | None =>
          match option_tuples p w with
          | [k] => Ok k
          | _ :: _ :: _ => Raises ParserError
          | [] => if negative_number w then Ok (Arg w) else if has_char " " w then Ok (Arg w) else Ok (Unknown w)
          end
        end
      end
    end
  | _ => Ok (Arg w)
  end.

(** the namespace, in the order of setattr; unrecognised words *)
Record state := mkState { s_values : list (str * val); s_extras : list str }.
Inductive outcome := Parsed (ns : list (str * val)) | Help | Refused.
(** _get_values and _check_value of one text *)
Definition convert (k : kind) (s : str) : option val :=
  match k with
  | KText => Some (VText s)
  | KOneOf l => if existsb (str_eqb s) l then Some (VText s) else None
  | _ => option_map VRead (read k s)
  end.
Inductive taken := Next (st : state) | Stop (o : outcome).
Definition set_value (d : str) (v : val) (st : state) : taken := Next (mkState (dict_set (s_values st) d v) (s_extras st)).
(** a member of the group of -v and -q after the other one: an error *)
Definition excluded (o : opt) (st : state) : bool :=
  match o_against o with Some d => match dict_get (s_values st) d with Some (VBool true) | Some (VCount _) => true | _ => false end | None => false end.
(** take_action of an option with the texts that it got (none or one) *)
Definition take (o : opt) (args : list str) (st : state) : taken :=
  if excluded o st then Stop Refused else
  match o_act o with
  | StoreTrue => set_value (o_dest o) (VBool true) st
  | StoreFalse => set_value (o_dest o) (VBool false) st
  | CountUp => set_value (o_dest o) (VCount (match dict_get (s_values st) (o_dest o) with Some (VCount n) => S n | _ => 1 end)) st
  | ShowHelp => Stop Help
  | Perhaps | One =>
    match args with
    | [] => set_value (o_dest o) VNone st
    | a :: _ => match convert (o_kind o) a with Some v => set_value (o_dest o) v st | None => Stop Refused end
    end
  end.
Fixpoint take_all (l : list (opt * list str)) (st : state) : taken :=
  match l with [] => Next st | (o, args) :: l => match take o args st with Next st => take_all l st | Stop r => Stop r end end.
Definition takes_text (o : opt) : bool := match o_act o with Perhaps | One => true | _ => false end.
(** consume_optional.  With an attached text: an option that takes a text gets it; after a short option that takes none its letters are further short options.
    Without: the next word, if it is an argument and the option takes one *)
Definition follow (o : opt) (ws : list word) : option (list (opt * list str) * list word) :=
  match o_act o, ws with
  | Perhaps, Arg a :: ws | One, Arg a :: ws => Some ([(o, [a])], ws)
  | One, _ => None
  | _, _ => Some ([(o, [])], ws)
  end.
Fixpoint attached_to (p : parser) (o : opt) (name text : str) (ws : list word) : option (list (opt * list str) * list word) :=
  if takes_text o then Some ([(o, [text])], ws)
  else match name, text with
       | _ :: "-"%char :: _, _ | _, [] => None
       | _, c :: text =>
         match find_option p ["-"%char; c] with
         | None => None
         | Some o2 =>
           match text with
           | [] => option_map (fun r : list (opt * list str) * list word => ((o, []) :: fst r, snd r)) (follow o2 ws)
           | _ => option_map (fun r : list (opt * list str) * list word => ((o, []) :: fst r, snd r)) (attached_to p o2 ["-"%char; c] text ws)
           end
         end
       end.
(** consume_positionals: as many of the positional arguments as find a word, the first nargs='+' taking what the others do not need *)
Fixpoint distribute (ps : list (str * many)) (args : list str) (st : state) : taken * list str :=
  match ps, args with
  | [], _ | _, [] => (Next st, args)
  | (d, Single) :: ps, a :: args => match set_value d (VText a) st with Next st => distribute ps args st | s => (s, args) end
  | (d, ListOfOne) :: ps, a :: args => match set_value d (VTexts [a]) st with Next st => distribute ps args st | s => (s, args) end
  | (d, AtLeastOne) :: ps, args =>
    let n := length args - length ps in
    match set_value d (VTexts (firstn n args)) st with Next st => distribute ps (skipn n args) st | s => (s, args) end
  end.
Fixpoint leading (ws : list word) : list str := match ws with Arg a :: ws => a :: leading ws | _ => [] end.
(** the loop of _parse_known_args; at the end every positional argument must have been given and no word be left over (parse_args) *)
Fixpoint run (fuel : nat) (p : parser) (ws : list word) (ps : list (str * many)) (st : state) : outcome :=
  match fuel with
  | 0 => Refused
  | S fuel =>
    match ws with
    | [] => match ps, s_extras st with [], [] => Parsed (s_values st) | _, _ => Refused end
    | Unknown s :: ws => run fuel p ws ps (mkState (s_values st) (s_extras st ++ [s]))
    | Known o name attached :: ws =>
      match (match attached with Some t => attached_to p o name t ws | None => follow o ws end) with
      | None => Refused
      | Some (l, ws) => match take_all l st with Next st => run fuel p ws ps st | Stop r => r end
      end
    | Arg _ :: _ =>
      let args := leading ws in
      let i := Nat.min (length ps) (length args) in
      match distribute (firstn i ps) args st with
      | (Next st, rest) => run fuel p (skipn (length args) ws) (skipn i ps) (mkState (s_values st) (s_extras st ++ rest))
      | (Stop r, _) => r
      end
    end
  end.
(** parse_known_args: the defaults, then the words *)
Definition defaults (p : parser) : list (str * val) :=
  flat_map (fun o => match o_default o with Some v => [(o_dest o, v)] | None => [] end) (p_options p).
Fixpoint classify_all (p : parser) (ws : list str) : res (list word) :=
  match ws with [] => Ok [] | w :: ws => bind (classify p w) (fun k => bind (classify_all p ws) (fun ks => Ok (k :: ks))) end.
Definition parse_words (p : parser) (ws : list str) : outcome :=
  match classify_all p ws with Ok ks => run (S (length ks)) p ks (p_positionals p) (mkState (defaults p) []) | Raises _ => Refused end.

(** *** the tables.  The common options, 53-63, with the help that every parser has *)
Definition flag (name dest : String.string) (a : act) (d : option val) : opt := mkOpt [lit name] (lit dest) a KText d None.
Definition common_options : list opt :=
  [mkOpt [lit "-h"; lit "--help"] (lit "help") ShowHelp KText None None;
   mkOpt [lit "-v"; lit "--verbose"] (lit "verbose") CountUp KText (Some VNone) (Some (lit "quiet"));
   mkOpt [lit "-q"; lit "--quiet"] (lit "quiet") StoreTrue KText (Some (VBool false)) (Some (lit "verbose"));
   flag "--force-overwrite" "force_overwrite" StoreTrue (Some (VBool false))].
Definition value (name : String.string) (a : act) (k : kind) (d : option val) : opt := mkOpt [lit ("--" ++ name)] (lit name) a k d None.
Definition output (d : val) : opt := mkOpt [lit "-o"; lit "--output"] (lit "output") Perhaps KText (Some d) None.
(** add_plot_parser_arguments, 90-190: argument_default=argparse.SUPPRESS.  The names of the plot types, colours and projections are parameters *)
Definition plot_parser (types colours projections : list str) : parser :=
  mkParser (common_options ++
    [output VNone; value "type" Perhaps (KOneOf types) None; value "xlabel" Perhaps KText None; value "ylabel" Perhaps KText None; value "cbarlabel" Perhaps KText None;
     value "title" Perhaps KText None; value "fontsize" Perhaps KFloat None; value "cmap" Perhaps KText None; value "height" Perhaps KFloat None; value "width" Perhaps KFloat None;
     value "xmin" Perhaps KDate None; value "xmax" Perhaps KDate None; value "xstep" Perhaps KDelta None;
     value "ymin" Perhaps KDate None; value "ymax" Perhaps KDate None; value "ystep" Perhaps KDelta None;
     value "vmin" Perhaps KDate None; value "vmax" Perhaps KDate None; value "vstep" Perhaps KDelta None;
     value "xbins" Perhaps KInt None; value "ybins" Perhaps KInt None; value "cbarorient" Perhaps (KOneOf [lit "vertical"; lit "horizontal"]) None;
     flag "--nocolourbar" "colourbar" StoreFalse None; flag "--logx" "logx" StoreTrue None; flag "--logy" "logy" StoreTrue None; flag "--logv" "logv" StoreTrue None;
     flag "--grid" "grid" StoreTrue None; value "xaxis" Perhaps KText None; value "yaxis" Perhaps KText None;
     value "coastlinescolour" Perhaps (KOneOf (colours ++ [lit "grey"])) None; flag "--nasabluemarble" "nasabluemarble" StoreTrue None;
     value "cbarscale" Perhaps KFloat None; value "projection" One (KOneOf projections) None;
     flag "--solid" "solid" StoreTrue None; value "extend" One KFloat None; flag "--fold" "fold" StoreTrue None; value "gammamax" One KFloat None; value "stdbiasmax" One KFloat None;
     value "bias" One (KOneOf [lit "color"; lit "colour"; lit "size"; lit "flag"]) None])
    [(lit "datagroups", AtLeastOne)].
(** 193-199 *)
Definition info_parser : parser := mkParser (common_options ++ [value "type" Perhaps KText (Some VNone)]) [(lit "datagroups", ListOfOne)].
(** 202-214 *)
Definition col_parser : parser := mkParser (common_options ++ [output (VText (lit "out"))]) [(lit "datagroups", AtLeastOne); (lit "samplegroup", Single)].
(** 217-228 *)
Definition aggregate_parser : parser := mkParser (common_options ++ [output (VText (lit "out"))]) [(lit "datagroups", ListOfOne); (lit "aggregategrid", Single)].
(** 231-240 *)
Definition collapse_parser : parser := mkParser (common_options ++ [output (VText (lit "out"))]) [(lit "datagroups", ListOfOne); (lit "dimensions", AtLeastOne)].
(** 243-250 *)
Definition subset_parser : parser := mkParser (common_options ++ [output (VText (lit "out"))]) [(lit "datagroups", ListOfOne); (lit "subsetranges", Single)].
(** 253-260 *)
Definition eval_parser : parser :=
  mkParser (common_options ++ [output (VText (lit "out")); mkOpt [lit "-a"; lit "--attributes"] (lit "attributes") Perhaps KText (Some VNone) None])
    [(lit "datagroups", AtLeastOne); (lit "expr", Single); (lit "units", Single)].
(** 263-269 *)
Definition stats_parser : parser := mkParser (common_options ++ [output VNone]) [(lit "datagroups", AtLeastOne)].
(** 87 *)
Definition version_parser : parser := mkParser [mkOpt [lit "-h"; lit "--help"] (lit "help") ShowHelp KText None None] [].
(** *** initialise_top_parser, 66-87: the commands; the common options may also stand before the command *)
Definition top_parser : parser := mkParser common_options [].
Definition commands (types colours projections : list str) : list (str * parser) :=
  [(lit "plot", plot_parser types colours projections); (lit "info", info_parser); (lit "collocate", col_parser); (lit "col", col_parser); (lit "aggregate", aggregate_parser); (lit "agg", aggregate_parser);
   (lit "subset", subset_parser); (lit "sub", subset_parser); (lit "eval", eval_parser); (lit "stats", stats_parser); (lit "collapse", collapse_parser); (lit "version", version_parser)].
(** _SubParsersAction.__call__ (Python 2.7.9 and 3.4.3 onwards): the command gets its own namespace, whose attributes, defaults among them, are then copied over those of the first parser *)
Definition copied (top ns : list (str * val)) : list (str * val) := ns ++ filter (fun e => match dict_get ns (fst e) with Some _ => false | None => true end) top.
(** the first parser: options, then the command, which takes all the words that follow.  Without a command Python 2 refuses and Python 3 fails in parse_args with a KeyError: both are Refused *)
Fixpoint top_run (fuel : nat) (table : list (str * parser)) (ks : list (str * word)) (st : state) : outcome :=
  match fuel with
  | 0 => Refused
  | S fuel =>
    match ks with
    | [] => Refused
    | (_, Unknown s) :: ks => top_run fuel table ks (mkState (s_values st) (s_extras st ++ [s]))
    | (_, Known o name attached) :: ks =>
      match (match attached with Some t => attached_to top_parser o name t (map snd ks) | None => follow o (map snd ks) end) with
      | None => Refused
      | Some (l, rest) => match take_all l st with Next st => top_run fuel table (skipn (length ks - length rest) ks) st | Stop r => r end
      end
    | (_, Arg c) :: ks =>
      match dict_get table c with
      | None => Refused
      | Some p =>
        match parse_words p (map fst ks) with
        | Parsed ns => match s_extras st with [] => Parsed (copied (dict_set (s_values st) (lit "command") (VText c)) ns) | _ => Refused end
        | r => r
        end
      end
    end
  end.
Definition parse_top (types colours projections : list str) (ws : list str) : outcome :=
  match classify_all top_parser ws with
  | Ok ks => top_run (S (length ks)) (commands types colours projections) (combine ws ks) (mkState (defaults top_parser) [])
  | Raises _ => Refused
  end.
End Parser.
Arguments VNone {V}. Arguments VText {V}. Arguments VTexts {V}. Arguments VRead {V}. Arguments VBool {V}. Arguments VCount {V}.
Arguments Arg {V}. Arguments Known {V}. Arguments Unknown {V}. Arguments Parsed {V}. Arguments Help {V}. Arguments Refused {V}. Arguments Next {V}. Arguments Stop {V}.
Arguments mkOpt {V}. Arguments mkParser {V}. Arguments mkState {V}. Arguments o_names {V}. Arguments o_dest {V}. Arguments o_act {V}. Arguments o_kind {V}. Arguments o_default {V}. Arguments o_against {V}.
Arguments p_options {V}. Arguments p_positionals {V}. Arguments s_values {V}. Arguments s_extras {V}.
Arguments spellings {V}. Arguments find_option {V}. Arguments option_tuples {V}. Arguments classify {V}. Arguments classify_all {V}. Arguments take {V}. Arguments take_all {V}. Arguments follow {V}. Arguments attached_to {V}.
Arguments distribute {V}. Arguments leading {V}. Arguments run {V}. Arguments defaults {V}. Arguments parse_words {V}. Arguments convert {V}. Arguments set_value {V}. Arguments excluded {V}. Arguments takes_text {V}.
Arguments parse_top {V}. Arguments top_run {V}. Arguments copied {V}.
