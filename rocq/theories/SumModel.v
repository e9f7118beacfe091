(** Printed descriptions of data: Metadata.summary (cis/data_io/ungridded_data.py:71-106) and UngriddedData.summary (711-744).
    Names, units, ranges and histories are those of MtModel.  Simplifications: the data are loaded and every coordinate has as many values as the data and none is missing (then no point is taken out, C60 and C64 are about that);
    Python's texts of units and of the ends of a range, and str of a missing value and of attributes, are parameters or given; the text of a range of dates of which one end is missing is that of one of two dates. *)
From Coq Require Import String.
From Verif Require Import Base PyStr QBase MtModel AeroModel.
From Coq Require Import List Ascii.
Import ListNotations.
Open Scope string_scope. Open Scope list_scope. Open Scope nat_scope. Notation length := List.length.

(** str of a tuple of whole numbers *)
Fixpoint commas (l : list str) : str := match l with [] => [] | [a] => a | a :: l => a ++ lit ", " ++ commas l end.
Definition shape_text (l : list nat) : str := match l with [n] => lit "(" ++ decimal n ++ lit ",)" | _ => lit "(" ++ commas (map decimal l) ++ lit ")" end.
(** str.title: the first letter of every run of letters is a capital, the others are not *)
Definition letter (c : ascii) : bool := negb (Ascii.eqb (lower_char c) (upper_char c)).
Fixpoint title_after (inside : bool) (s : str) : str := match s with [] => [] | c :: s => (if inside then lower_char c else upper_char c) :: title_after (letter c) s end.
Definition title : str -> str := title_after false.
Definition pad (n : nat) : str := repeat " "%char n.
Definition nl : str := ["010"%char].

Section Texts.
(** cf_units' reading of texts and writing of units; the texts of the ends of a range (None: masked) *)
Variable U : str -> option unit.
Variable unit_text : unit -> str.
Variable number_end date_end : option Q -> str.
Definition units_text (u : units) : str := match u with UUnit u => unit_text u | UText s => s end.
(** Data or a coordinate: what MtModel has of it, and its shape, missing value and other attributes *)
Record item := mkItem { t_lazy : lazy; t_shape : list nat; t_missing : str; t_misc : list (str * str) }.
Definition t_meta (t : item) : meta := l_meta (t_lazy t).
Definition std_text (s : option str) : str := match s with Some s => s | None => lit "None" end.
(** 84-90: [self.range[0]] of None is a TypeError, of () an IndexError *)
Definition range_text (r : range) : res str :=
  match r with
  | NoRange => Raises TypeError
  | EmptyRange => Raises IndexError
  | Range a b => Ok (lit "(" ++ number_end a ++ lit ", " ++ number_end b ++ lit ")")
  | DateRange a b => Ok (lit "(" ++ date_end a ++ lit ", " ++ date_end b ++ lit ")")
  end.
(** Metadata.summary, 71-96 *)
Definition meta_summary (offset : nat) (t : item) : res str :=
  let m := t_meta t in
  bind (range_text (m_range m)) (fun r =>
  Ok (pad offset ++ lit "Long name = " ++ m_long m ++ nl ++
      pad offset ++ lit "Standard name = " ++ std_text (m_std m) ++ nl ++
      pad offset ++ lit "Units = " ++ units_text (m_units m) ++ nl ++
      pad offset ++ lit "Missing value = " ++ t_missing t ++ nl ++
      pad offset ++ lit "Range = " ++ r ++ nl ++
      pad offset ++ lit "History = " ++ m_history m ++ nl ++
      match t_misc t with
      | [] => []
      | l => pad offset ++ lit "Misc attributes: " ++ nl ++ flat_map (fun kv : str * str => pad (offset + 2) ++ title (fst kv) ++ lit " = " ++ snd kv ++ nl) l
      end)).
Definition unknown : str := lit "unknown".
Definition item_name (t : item) : str := name_of (t_lazy t) unknown.
(** update_range of one that is described *)
Definition refresh (t : item) : item * option exn := let (l, e) := update_range U (t_lazy t) in (mkItem l (t_shape t) (t_missing t) (t_misc t), e).
Fixpoint refresh_all (l : list item) : list item * option exn :=
  match l with
  | [] => ([], None)
  | c :: l => match refresh c with (c, Some e) => (c :: l, Some e) | (c, None) => let (l, e) := refresh_all l in (c :: l, e) end
  end.
Record data := mkData { s_item : item; s_coords : list item }.
(** _post_process, 466-500, as simplified above: the ranges of the coordinates, then that of the data *)
Definition post_process (d : data) : data * option exn :=
  match refresh_all (s_coords d) with
  | (cs, Some e) => (mkData (s_item d) cs, Some e)
  | (cs, None) => let (t, e) := refresh (s_item d) in (mkData t cs, e)
  end.
(** the loop over the coordinates, 726-729 *)
Fixpoint coord_summaries (l : list item) : list item * res str :=
  match l with
  | [] => ([], Ok [])
  | c :: l =>
    match refresh c with
    | (c, Some e) => (c :: l, Raises e)
    | (c, None) => match meta_summary 10 c with
                   | Raises e => (c :: l, Raises e)
                   | Ok s => let (l, r) := coord_summaries l in (c :: l, bind r (fun r => Ok (pad 7 ++ item_name c ++ nl ++ s ++ r)))
                   end
    end
  end.
Definition cells (a : array) : list (option Q) := match a with Nums l | Dates l => l end.
(** size and count, 565-569 *)
Definition size (t : item) : nat := length (cells (l_data (t_lazy t))).
Definition count (t : item) : nat := length (filter (fun o : option Q => match o with Some _ => true | None => false end) (cells (l_data (t_lazy t)))).
(** summary, 711-731 *)
Definition header (d : data) : str := lit "Ungridded data: " ++ item_name (s_item d) ++ lit " / (" ++ units_text (m_units (t_meta (s_item d))) ++ lit ") " ++ nl.
Definition summary (shorten : bool) (d : data) : data * res str :=
  if shorten then (d, Ok (header d)) else
  let front := header d ++ lit "     Shape = " ++ shape_text (t_shape (s_item d)) ++ nl ++ nl ++
               lit "     Total number of points = " ++ decimal (size (s_item d)) ++ nl ++ lit "     Number of non-masked points = " ++ decimal (count (s_item d)) ++ nl in
  match meta_summary 5 (s_item d) with
  | Raises e => (d, Raises e)
  | Ok s =>
    match post_process d with
    | (d, Some e) => (d, Raises e)
    | (d, None) => let (cs, r) := coord_summaries (s_coords d) in (mkData (s_item d) cs, bind r (fun r => Ok (front ++ s ++ lit "     Coordinates: " ++ nl ++ r)))
    end
  end.
(** __repr__, 733-734; data.setter, 328-331 *)
Definition repr_of (d : data) : str := lit "<cis 'UngriddedData' of " ++ header d ++ lit ">".
Definition put_values (d : data) (shape : list nat) (a : array) : data := mkData (mkItem (set_data (t_lazy (s_item d)) a) shape (t_missing (s_item d)) (t_misc (s_item d))) (s_coords d).
End Texts.
