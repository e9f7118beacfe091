(** The limits of the subset command, the grid of the aggregate command and the attributes of the eval command: cis/parse.py:302-320, 440-488, 505-559, 856-871,
    with cis/parse_datetime.py:54-88, 172-222. *)
From Coq Require Import String.
From Verif Require Import Base PyStr QBase FileListModel ParseModel DistModel DateModel ProdModel ReModel.
From Coq Require Import List.
Import ListNotations.
Open Scope string_scope. Open Scope list_scope. Open Scope nat_scope. Notation length := List.length.

(** int() and float() of a text (parse_datetime.py:182-187; nan and inf are left out), and dateutil.parser.parse (no time zones, no fractions of seconds) *)
Record readers := mkReaders { number : str -> option Q; date : str -> option datetime }.
Inductive val := VNum (q : Q) | VDate (t : datetime).
Section Args.
Variable E : readers.

(** the word None, or no text at all *)
Definition is_none (s : option str) : option str := match s with Some s => if str_eqb s (lit "None") then None else Some s | None => None end.
(** parse_as_number_or_datetime, parse_datetime.py:172-192 *)
Definition number_or_datetime (s : option str) : res (option val) :=
  match is_none s with
  | None => Ok None
  | Some s => match number E s with
    | Some q => Ok (Some (VNum q))
    | None => match date E s with Some t => Ok (Some (VDate t)) | None => Raises ArgumentTypeError end end
  end.
(** parse_as_number_or_datetime_delta, 209-222: a number, or seconds *)
Inductive delta := DNum (q : Q) | DSeconds (z : Z).
Definition number_or_delta (s : str) : res delta :=
  match number E s with
  | Some q => Ok (DNum q)
  | None => match parse_datetime_delta s with Ok z => Ok (DSeconds z) | Raises ValueError => Raises ArgumentTypeError | Raises e => Raises e end
  end.
(** parse_datetime and parse_partial_datetime with their error reports, 54-88; parse_float, parse.py:302-319 *)
Definition datetime_arg (s : str) : res (option val) :=
  match is_none (Some s) with None => Ok None | Some s => match date E s with Some t => Ok (Some (VDate t)) | None => Raises ParserError end end.
Definition partial_arg (s : str) : res (option partial) :=
  match is_none (Some s) with
  | None => Ok None
  | Some s => match parse_partial_datetime s with Ok p => Ok (Some p) | Raises ValueError => Raises ParserError | Raises e => Raises e end
  end.
Definition float_arg (s : option str) : res (option Q) :=
  match is_none s with None => Ok None | Some s => match number E s with Some q => Ok (Some q) | None => Raises ParserError end end.

(** ** get_subset_limits, 505-559 *)
Inductive limits := Between (a b : option val) | Within (p : option partial) | ShapeText (s : str).
Definition DIM := 0. Definition START := 1. Definition END := 2. Definition DELTA := 3.
Definition value_char (c : ascii) : bool := isnt "]" c && isnt "," c.
(** r'(?P<dim>[^=]+)=\[(?P<start>[^],]+)(?:,(?P<end>[^],]+))?\]$' *)
Definition subset_re : re :=
  Seq (Group DIM (Plus (isnt "="))) (Seq (Chr (is "=")) (Seq (Chr (is "[")) (Seq (Group START (Plus value_char))
    (Seq (Opt (Seq (Chr (is ",")) (Group END (Plus value_char)))) (Seq (Chr (is "]")) End))))).
Definition one_of (names : list string) (dim : str) : bool := existsb (fun n => str_eqb (lower dim) (lit n)) names.
Definition subset_segment (seg : str) : res (str * limits) :=
  let m := re_match subset_re seg in
  if starts_with (lit "shape") seg then
    match nth_error (split_on "=" seg) 1 with Some t => Ok (lit "shape", ShapeText t) | None => Raises IndexError end
  else match m with
  | None => Raises ParserError
  | Some g =>
    match group g DIM, group g START with
    | Some dim, Some limit1 =>
      let limit2 := group g END in
      bind
        (if one_of ["t"; "time"] dim then
           match limit2 with
           | None => bind (partial_arg limit1) (fun p => Ok (Within p))
           | Some limit2 => bind (datetime_arg limit1) (fun a => bind (datetime_arg limit2) (fun b => Ok (Between a b)))
           end
         else if one_of ["x"; "y"; "z"] dim then
           bind (float_arg (Some limit1)) (fun a => bind (float_arg limit2) (fun b =>
           let result := Between (option_map VNum a) (option_map VNum b) in
           if one_of ["x"] dim then
             match a, b with
             | Some a, Some b => if Qle_bool a b then if Qle_bool (b - a) 360 then Ok result else Raises ParserError else Raises ParserError
             | _, _ => Raises TypeError   (* None <= number *)
             end
           else Ok result))
         else bind (number_or_datetime (Some limit1)) (fun a => bind (number_or_datetime limit2) (fun b => Ok (Between a b))))
        (fun l => Ok (dim, l))
    | _, _ => Raises ParserError
    end
  end.
(** the loop over the segments into a dictionary *)
Fixpoint into_dict {V} (f : str -> res (str * V)) (segs : list str) (d : list (str * V)) : res (list (str * V)) :=
  match segs with [] => Ok d | seg :: segs => bind (f seg) (fun kv => into_dict f segs (dict_set d (fst kv) (snd kv))) end.
Definition get_subset_limits (text : str) : res (list (str * limits)) :=
  match split_outside_brackets text "," with [] => Raises ParserError | segs => into_dict subset_segment segs [] end.

(** ** get_aggregate_grid, 440-488 *)
(** r'(?P<dim>[^=]+)(?:=)?(?:\[(?P<start>[^],]+)?(?:,(?P<end>[^],]+))?(?:,(?P<delta>[^]]+))?\])?' *)
Definition grid_re : re :=
  Seq (Group DIM (Plus (isnt "="))) (Seq (Opt (Chr (is "="))) (Opt (Seq (Chr (is "[")) (Seq (Opt (Group START (Plus value_char)))
    (Seq (Opt (Seq (Chr (is ",")) (Group END (Plus value_char)))) (Seq (Opt (Seq (Chr (is ",")) (Group DELTA (Plus (isnt "]"))))) (Chr (is "]")))))))).
(** slice(start, end, delta) *)
Record grid := mkGrid { g_start : option val; g_end : option val; g_delta : delta }.
Definition seconds_of (t : datetime) : Z := (toordinal t * 86400 + seconds_of_day t)%Z.
(** start <= end, and end - start <= 360 (a timedelta is not compared with a number) *)
Definition val_le (a b : option val) : res bool :=
  match a, b with
  | Some (VNum a), Some (VNum b) => Ok (Qle_bool a b)
  | Some (VDate a), Some (VDate b) => Ok (seconds_of a <=? seconds_of b)%Z
  | _, _ => Raises TypeError
  end.
Definition at_most_360 (a b : option val) : res bool := match a, b with Some (VNum a), Some (VNum b) => Ok (Qle_bool (b - a) 360) | _, _ => Raises TypeError end.
Definition grid_segment (seg : str) : res (str * option grid) :=
  match re_match grid_re seg with
  | None => Raises ParserError
  | Some g =>
    match group g DIM with
    | None => Raises ParserError
    | Some dim =>
      match group g START, group g END, group g DELTA with
      | None, _, None => Ok (dim, None)
      | _, None, _ => Raises ParserError
      | _, _, None => Raises ParserError
      | start, Some stop, Some step =>
        bind (number_or_datetime start) (fun a => bind (number_or_datetime (Some stop)) (fun b => bind (number_or_delta step) (fun s =>
        if one_of ["x"] dim then
          bind (val_le a b) (fun le => if le then bind (at_most_360 a b) (fun w => if w then Ok (dim, Some (mkGrid a b s)) else Raises ParserError) else Raises ParserError)
        else Ok (dim, Some (mkGrid a b s)))))
      end
    end
  end.
Definition get_aggregate_grid (text : str) : res (list (str * option grid)) :=
  match split_outside_brackets text "," with [] => Raises ParserError | segs => into_dict grid_segment segs [] end.
End Args.

(** ** _create_attributes_dictionary, 856-871 *)
Definition attribute_pair (pair : str) : res (str * str) :=
  match split_on "=" pair with
  | [key; value] => match key, value with _ :: _, _ :: _ => Ok (key, value) | _, _ => Raises ParserError end
  | _ => Raises ParserError
  end.
Definition create_attributes_dictionary (attributes : option str) : res (option (list (str * str))) :=
  match attributes with None => Ok None | Some text => bind (into_dict attribute_pair (split_on "," text) []) (fun d => Ok (Some d)) end.
