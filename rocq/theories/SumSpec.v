(** Specification for C108: what a printed description of data says. *)
From Coq Require Import String.
From Verif Require Import Base PyStr QBase MtModel MtSpec AeroModel SumModel.
From Coq Require Import List Ascii.
Import ListNotations.
Open Scope string_scope. Open Scope list_scope. Open Scope nat_scope. Notation length := List.length.

Section Spec.
Variable U : str -> option unit.
Variable unit_text : unit -> str.
Variable number_end date_end : option Q -> str.
(** a text of lines, each ended by a line break *)
Fixpoint of_lines (l : list str) : str := match l with [] => [] | s :: l => s ++ ["010"%char] ++ of_lines l end.
Definition blank (n : nat) (s : str) : str := repeat " "%char n ++ s.
Definition entry (n : nat) (label : String.string) (value : str) : str := blank n (lit label ++ lit " = " ++ value).
(** the first name that is not empty: standard, long, of the variable *)
Inductive goes_by (m : meta) : str -> Prop :=
| by_standard s : m_std m = Some s -> s <> [] -> goes_by m s
| by_long : m_std m = None \/ m_std m = Some [] -> m_long m <> [] -> goes_by m (m_long m)
| by_variable : m_std m = None \/ m_std m = Some [] -> m_long m = [] -> m_name m <> [] -> goes_by m (m_name m)
| by_none : m_std m = None \/ m_std m = Some [] -> m_long m = [] -> m_name m = [] -> goes_by m (lit "unknown").
Definition units_read (u : units) (s : str) : Prop := match u with UUnit u => s = unit_text u | UText t => s = t end.
Definition standard_read (o : option str) (s : str) : Prop := o = Some s \/ o = None /\ s = lit "None".
Definition ends_read (r : range) (s : str) : Prop :=
  exists a b, (r = Range a b /\ s = lit "(" ++ number_end a ++ lit ", " ++ number_end b ++ lit ")") \/ (r = DateRange a b /\ s = lit "(" ++ date_end a ++ lit ", " ++ date_end b ++ lit ")").
(** a title: a letter is a capital unless a letter is before it (a letter is what has two cases) *)
Definition cased (c : ascii) : Prop := lower_char c <> upper_char c.
Definition after_letter (s : str) (i : nat) : Prop := exists j b, i = S j /\ nth_error s j = Some b /\ cased b.
Definition titled (s t : str) : Prop :=
  length t = length s /\ forall i c, nth_error s i = Some c -> (after_letter s i -> nth_error t i = Some (lower_char c)) /\ (~ after_letter s i -> nth_error t i = Some (upper_char c)).
(** an attribute's line *)
Definition attribute (n : nat) (kv : str * str) (line : str) : Prop := exists t, titled (fst kv) t /\ line = blank (n + 2) (t ++ lit " = " ++ snd kv).
(** a shape in brackets, with a comma behind the number if there is only one *)
Definition shape_read (l : list nat) (s : str) : Prop := (exists n, l = [n] /\ s = lit "(" ++ decimal n ++ lit ",)") \/ (length l <> 1 /\ s = lit "(" ++ glue (lit ", ") (map decimal l) ++ lit ")").
(** the lines about metadata, [n] blanks in; the range is given *)
Definition about (n : nat) (t : item) (r : range) (l : list str) : Prop :=
  exists std u e attributes, Forall2 (attribute n) (t_misc t) attributes /\ standard_read (m_std (t_meta t)) std /\ units_read (m_units (t_meta t)) u /\ ends_read r e /\
  l = [entry n "Long name" (m_long (t_meta t)); entry n "Standard name" std; entry n "Units" u; entry n "Missing value" (t_missing t); entry n "Range" e; entry n "History" (m_history (t_meta t))] ++
      match t_misc t with [] => [] | _ => blank n (lit "Misc attributes: ") :: attributes end.
Definition values (t : item) : list (option Q) := match l_data (t_lazy t) with Nums l | Dates l => l end.
(** the range of the values that there are: the least and the greatest, as dates (in seconds) for data in standard times *)
Definition range_now (t : item) (r : range) : Prop :=
  match l_data (t_lazy t) with
  | Nums x => x <> [] /\ exists a b, least x a /\ greatest x b /\
      ((standard_time U (m_units (t_meta t)) /\ r = DateRange (option_map (Qmult 86400) a) (option_map (Qmult 86400) b)) \/ (~ standard_time U (m_units (t_meta t)) /\ r = Range a b))
  | Dates x => x <> [] /\ ~ standard_time U (m_units (t_meta t)) /\ exists a b, least x a /\ greatest x b /\ r = DateRange a b
  end.
(** values that can be described: there are some, and dates are not in standard times *)
Definition has_range (t : item) : Prop := values t <> [] /\ (forall x, l_data (t_lazy t) = Dates x -> ~ standard_time U (m_units (t_meta t))).
(** the lines about one coordinate, with the range that its values have now *)
Definition about_coord (t : item) (l : list str) : Prop := exists name r ls, goes_by (t_meta t) name /\ range_now t r /\ about 10 t r ls /\ l = blank 7 name :: ls.
(** how many values are not masked *)
Inductive unmasked : list (option Q) -> nat -> Prop :=
| unmasked_nil : unmasked [] 0
| unmasked_some x l n : unmasked l n -> unmasked (Some x :: l) (S n)
| unmasked_none l n : unmasked l n -> unmasked (None :: l) n.
(** the whole description; [r] is the range told for the data *)
Definition described (d : data) (r : range) (text : str) : Prop :=
  exists name u k sh ls cs, shape_read (t_shape (s_item d)) sh /\ goes_by (t_meta (s_item d)) name /\ units_read (m_units (t_meta (s_item d))) u /\ unmasked (values (s_item d)) k /\ about 5 (s_item d) r ls /\ Forall2 about_coord (s_coords d) cs /\
  text = of_lines ([lit "Ungridded data: " ++ name ++ lit " / (" ++ u ++ lit ") "; entry 5 "Shape" sh; [];
                    entry 5 "Total number of points" (decimal (length (values (s_item d)))); entry 5 "Number of non-masked points" (decimal k)] ++
                   ls ++ [blank 5 (lit "Coordinates: ")] ++ concat cs).
(** all but the range stays as it was *)
Definition same_but_range (t t' : item) : Prop :=
  l_data (t_lazy t') = l_data (t_lazy t) /\ l_flat (t_lazy t') = l_flat (t_lazy t) /\ l_ordered (t_lazy t') = l_ordered (t_lazy t) /\ t_shape t' = t_shape t /\ t_missing t' = t_missing t /\ t_misc t' = t_misc t /\
  m_name (t_meta t') = m_name (t_meta t) /\ m_std (t_meta t') = m_std (t_meta t) /\ m_long (t_meta t') = m_long (t_meta t) /\ m_units (t_meta t') = m_units (t_meta t) /\ m_history (t_meta t') = m_history (t_meta t).
(** a range that can be told *)
Definition told (r : range) : Prop := r <> NoRange /\ r <> EmptyRange.
End Spec.
(** ** examples *)
Definition example_end (o : option Q) : str := match o with Some q => decimal (Z.to_nat (Qnum q)) | None => lit "--" end.
Definition example_item (name std units history : String.string) (r : range) (v : list (option Q)) (misc : list (str * str)) : item :=
  mkItem (mkLazy (mkMeta [] (match std with EmptyString => None | _ => Some (lit std) end) (lit name) (UText (lit units)) r (lit history)) (Nums v) true NotKept) [length v] (lit "None") misc.
Definition example_coord : item := example_item "" "latitude" "degrees" "" NoRange [Some (7 # 1); Some (3 # 1)] [].
Definition example : data := mkData (example_item "smoke" "" "K" "h" (Range (Some (1 # 1)) (Some (1 # 1))) [Some (1 # 1); None] [(lit "note_a", lit "b")]) [example_coord].
Definition example_unset : data := mkData (example_item "smoke" "" "K" "h" NoRange [Some (1 # 1)] []) [example_item "" "latitude" "degrees" "" NoRange [] []].
