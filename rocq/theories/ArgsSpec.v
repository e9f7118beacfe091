(** Specifications for C65 - C67: what the texts of limits, grids and attributes mean. *)
From Coq Require Import String.
From Verif Require Import Base PyStr QBase DateModel ParseModel ParseSpec ArgsModel.
From Coq Require Import List.
Import ListNotations.
Open Scope string_scope. Open Scope list_scope. Open Scope nat_scope. Notation length := List.length.

(** The text is cut into pieces at the commas that no bracket encloses; nothing follows a last comma. *)
Definition cut_at_commas (text : str) (pieces : list str) : Prop :=
  exists parts tail, text = assemble parts tail /\ pieces = map fst parts ++ (match tail with [] => [] | _ => [tail] end)
    /\ forall i, In i (cut_positions 0 parts) <-> outside_separator default_brackets [","%char] text i.
(** The dictionary of key-value pairs given one after the other: one entry per key, the last one given *)
Definition dictionary {V} (pairs d : list (str * V)) : Prop :=
  NoDup (map fst d) /\ forall k v, In (k, v) d <-> exists p1 p2, pairs = p1 ++ (k, v) :: p2 /\ ~ In k (map fst p2).
(** A text without any of these characters, and not empty *)
Definition text_without (cs : list ascii) (s : str) : Prop := s <> [] /\ forall c, In c cs -> ~ In c s.

(** A value of the user: the word None (or nothing, where a value may be left out), a number, a date *)
Inductive means_number (E : readers) : option str -> option Q -> Prop :=
| mn_none : means_number E None None
| mn_None : means_number E (Some (lit "None")) None
| mn_number s q : s <> lit "None" -> number E s = Some q -> means_number E (Some s) (Some q).
Inductive means_date (E : readers) : str -> option val -> Prop :=
| md_None : means_date E (lit "None") None
| md_date s t : s <> lit "None" -> date E s = Some t -> means_date E s (Some (VDate t)).
Inductive means_any (E : readers) : option str -> option val -> Prop :=
| ma_none : means_any E None None
| ma_None : means_any E (Some (lit "None")) None
| ma_number s q : s <> lit "None" -> number E s = Some q -> means_any E (Some s) (Some (VNum q))
| ma_date s t : s <> lit "None" -> number E s = None -> date E s = Some t -> means_any E (Some s) (Some (VDate t)).
Inductive means_period : str -> option partial -> Prop :=
| mp_None : means_period (lit "None") None
| mp_period s p : s <> lit "None" -> parse_partial_datetime s = Ok p -> means_period s (Some p).
Inductive means_step (E : readers) : str -> delta -> Prop :=
| ms_number s q : number E s = Some q -> means_step E s (DNum q)
| ms_delta s z : number E s = None -> parse_datetime_delta s = Ok z -> means_step E s (DSeconds z).

Definition named (names : list string) (dim : str) : Prop := exists n, In n names /\ lower dim = lit n.
Definition begins (p s : str) : Prop := exists r, s = p ++ r.
(** dim=[a,b], or dim=[a] if b is left out; a line break may follow *)
Definition second (b : option str) : str := match b with Some b => ","%char :: b | None => [] end.
Definition written (dim a : str) (b : option str) (seg : str) : Prop :=
  text_without ["="%char] dim /\ text_without ["]"; ","]%char a /\ (forall t, b = Some t -> text_without ["]"; ","]%char t)
  /\ exists nl, (nl = [] \/ nl = ["010"%char]) /\ seg = dim ++ lit "=[" ++ a ++ second b ++ "]"%char :: nl.
(** one piece of the limits, its name, its limits *)
Inductive limit_piece (E : readers) : str -> str -> limits -> Prop :=
| lp_shape w t rest : ~ In "="%char w -> ~ In "="%char t -> (rest = [] \/ begins (lit "=") rest) ->
    limit_piece E (lit "shape" ++ w ++ lit "=" ++ t ++ rest) (lit "shape") (ShapeText t)
| lp_period seg dim a p : ~ begins (lit "shape") seg -> written dim a None seg -> named ["t"; "time"] dim -> means_period a p -> limit_piece E seg dim (Within p)
| lp_times seg dim a b x y : ~ begins (lit "shape") seg -> written dim a (Some b) seg -> named ["t"; "time"] dim -> means_date E a x -> means_date E b y ->
    limit_piece E seg dim (Between x y)
| lp_x seg dim a b x y : ~ begins (lit "shape") seg -> written dim a (Some b) seg -> named ["x"] dim ->
    means_number E (Some a) (Some x) -> means_number E (Some b) (Some y) -> (x <= y)%Q -> (y - x <= 360)%Q -> limit_piece E seg dim (Between (Some (VNum x)) (Some (VNum y)))
| lp_yz seg dim a b x y : ~ begins (lit "shape") seg -> written dim a b seg -> named ["y"; "z"] dim -> means_number E (Some a) x -> means_number E b y ->
    limit_piece E seg dim (Between (option_map VNum x) (option_map VNum y))
| lp_other seg dim a b x y : ~ begins (lit "shape") seg -> written dim a b seg -> ~ named ["t"; "time"; "x"; "y"; "z"] dim -> means_any E (Some a) x -> means_any E b y ->
    limit_piece E seg dim (Between x y).

(** the grid of the aggregate command: dim=[start,stop,step], whatever follows; the start may be left out *)
Definition grid_written (dim : str) (a : option str) (b c seg : str) : Prop :=
  text_without ["="%char] dim /\ (forall t, a = Some t -> text_without ["]"; ","]%char t) /\ text_without ["]"; ","]%char b /\ text_without ["]"%char] c
  /\ exists rest, seg = dim ++ lit "=[" ++ (match a with Some a => a | None => [] end) ++ ","%char :: b ++ ","%char :: c ++ "]"%char :: rest.
(** no grid: a name alone; or what follows the equals sign is not in brackets, or the brackets are empty, or hold one comma with nothing before it or nothing after it *)
Definition bracketed (body r : str) : Prop := ~ In "]"%char body /\ exists rest, r = "["%char :: body ++ "]"%char :: rest.
Definition no_grid (dim seg : str) : Prop :=
  text_without ["="%char] dim /\
  (seg = dim \/ exists r, seg = dim ++ "="%char :: r /\
     ((forall body, ~ bracketed body r) \/ bracketed [] r \/ (exists t, ~ In ","%char t /\ (bracketed (","%char :: t) r \/ bracketed (t ++ [","%char]) r)))).
Definition longitude_range (a b : option val) : Prop := exists x y, a = Some (VNum x) /\ b = Some (VNum y) /\ (x <= y)%Q /\ (y - x <= 360)%Q.
Inductive grid_piece (E : readers) : str -> str -> option grid -> Prop :=
| gp_grid seg dim a b c x y s : grid_written dim a b c seg -> means_any E a x -> means_any E (Some b) y -> means_step E c s ->
    (named ["x"] dim -> longitude_range x y) -> grid_piece E seg dim (Some (mkGrid x y s))
| gp_none seg dim : no_grid dim seg -> grid_piece E seg dim None.

(** the pieces and what they mean *)
Definition meaning {V} (piece : str -> str -> V -> Prop) (pieces : list str) (pairs : list (str * V)) : Prop := Forall2 (fun seg kv => piece seg (fst kv) (snd kv)) pieces pairs.
(** attributes: key=value *)
Definition attribute_text (pair k v : str) : Prop := text_without ["="; ","]%char k /\ text_without ["="; ","]%char v /\ pair = k ++ "="%char :: v.
