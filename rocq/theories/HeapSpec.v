(** Specifications for C39, C59, C60: what is seen of data in memory, what can be reached from it, what can be done by way of it. *)
From Coq Require Import String.
From Verif Require Import Base PyStr QBase LonModel HeapModel.
From Coq Require Import List.
Import ListNotations.
Open Scope string_scope. Open Scope list_scope. Open Scope nat_scope. Notation length := List.length.

(** ** Sharing *)
(** the objects an object refers to *)
Definition refs (o : obj) : list loc :=
  match o with
  | OBuf _ => []
  | OArr _ b _ => [b]
  | ODict _ => []
  | OMeta m => [m_misc m]
  | OCoord d f md _ at_ => d :: md :: at_ :: match f with Some f => [f] | None => [] end
  | OList l => l
  | OData d f md cs at_ => d :: md :: cs :: at_ :: match f with Some f => [f] | None => [] end
  end.
Inductive reach (h : heap) : loc -> loc -> Prop :=
| reach_here l : reach h l l
| reach_step l o m n : nth_error h l = Some o -> In m (refs o) -> reach h m n -> reach h l n.
Definition no_dangling (h : heap) : Prop := forall l o r, nth_error h l = Some o -> In r (refs o) -> r < length h.
Definition separate (h : heap) (a b : loc) : Prop := forall l, reach h a l -> reach h b l -> False.
(** Whatever a program does that starts at the object [a] alone: it changes only objects it finds there, it may make new ones, and what is found at [a]
    later was found there before or is new. *)
Definition edit (a : loc) (h h' : heap) : Prop :=
  length h <= length h' /\ no_dangling h' /\
  (forall l, l < length h -> ~ reach h a l -> nth_error h' l = nth_error h l) /\
  (forall l, reach h' a l -> reach h a l \/ length h <= l).
(** a history of edits by way of either object *)
Inductive history (a b : loc) (h : heap) : heap -> Prop :=
| h_start : history a b h h
| h_first h1 h2 : history a b h h1 -> edit a h1 h2 -> history a b h h2
| h_second h1 h2 : history a b h h1 -> edit b h1 h2 -> history a b h h2.

(** what [m], working on [d], returns shares nothing with anything there was before: not with [d], nor with any other object *)
Definition fresh_from (d : loc) (m : M loc) : Prop := forall h c h', no_dangling h -> d < length h -> m h = Ok (c, h') ->
  no_dangling h' /\ length h <= length h' /\ c < length h' /\ forall z, z < length h -> separate h' z c.
(** the copy [c] of [d] shares nothing with what there was before but the array [x] it was given *)
Definition copy_shares (x d : loc) (h : heap) (c : loc) (h' : heap) : Prop :=
  no_dangling h' /\ length h <= length h' /\ c < length h' /\ forall z l, z < length h -> reach h' z l -> reach h' c l -> reach h x l.

(** ** What is seen *)
Definition see_array (h : heap) (l : loc) : option (list nat * list cell) :=
  match nth_error h l with
  | Some (OArr shape b index) => match nth_error h b with Some (OBuf cells) => Some (shape, map (fun i => nth i cells (mkCell true None)) index) | _ => None end
  | _ => None end.
Definition see_dict (h : heap) (l : loc) : option (list (str * str)) := match nth_error h l with Some (ODict d) => Some d | _ => None end.
Record md_view := mkMd { v_name : str; v_std : option str; v_long : str; v_shape : list nat; v_units : str; v_range : list (option Q); v_history : str; v_misc : list (str * str) }.
Definition see_meta (h : heap) (l : loc) : option md_view :=
  match nth_error h l with
  | Some (OMeta m) => match see_dict h (m_misc m) with
      | Some d => Some (mkMd (m_name m) (m_std m) (m_long m) (m_shape m) (m_units m) (m_range m) (m_history m) d) | None => None end
  | _ => None end.
(** data_flattened: what was kept, or the elements of the data *)
Definition see_flat (h : heap) (f : option loc) (data : list nat * list cell) : option (list nat * list cell) :=
  match f with Some l => see_array h l | None => Some ([length (snd data)], snd data) end.
(** data, data_flattened, metadata and attributes of a data object or coordinate *)
Record lazy_view := mkLazy { v_data : list nat * list cell; v_flat : list nat * list cell; v_md : md_view; v_attrs : list (str * str) }.
Definition see_lazy (h : heap) (d : loc) (f : option loc) (md at_ : loc) : option lazy_view :=
  match see_array h d, see_meta h md, see_dict h at_ with
  | Some a, Some m, Some t => match see_flat h f a with Some fl => Some (mkLazy a fl m t) | None => None end
  | _, _, _ => None end.
Definition see_coord (h : heap) (l : loc) : option (lazy_view * str) :=
  match nth_error h l with Some (OCoord d f md ax at_) => match see_lazy h d f md at_ with Some v => Some (v, ax) | None => None end | _ => None end.
Fixpoint see_all {A} (see : loc -> option A) (l : list loc) : option (list A) :=
  match l with [] => Some [] | x :: l => match see x, see_all see l with Some v, Some vs => Some (v :: vs) | _, _ => None end end.
Definition see_coords (h : heap) (l : loc) : option (list (lazy_view * str)) := match nth_error h l with Some (OList cs) => see_all (see_coord h) cs | _ => None end.
Definition see_data (h : heap) (l : loc) : option (lazy_view * list (lazy_view * str)) :=
  match nth_error h l with
  | Some (OData d f md cs at_) => match see_lazy h d f md at_, see_coords h cs with Some v, Some c => Some (v, c) | _, _ => None end
  | _ => None end.
Definition see_datalist (h : heap) (l : loc) : option (list (lazy_view * list (lazy_view * str))) := match nth_error h l with Some (OList ds) => see_all (see_data h) ds | _ => None end.
(** [l] looks the same in both memories *)
Definition looks_the_same (h h' : heap) (l : loc) : Prop :=
  see_data h' l = see_data h l /\ see_coord h' l = see_coord h l /\ see_coords h' l = see_coords h l /\ see_datalist h' l = see_datalist h l /\ see_array h' l = see_array h l.

(** ** C59: what a copy or slice looks like *)
(** no coordinate value is missing, and there is one point per value *)
Definition is_there (c : cell) : Prop := masked c = false /\ value c <> None.
Definition all_there (v : lazy_view * list (lazy_view * str)) : Prop :=
  Forall (fun c => Forall is_there (snd (v_data (fst c))) /\ length (snd (v_data (fst c))) = length (snd (v_data (fst v)))) (snd v).
(** every coordinate and the data have metadata objects of their own *)
Definition md_of (h : heap) (l : loc) : option loc := match nth_error h l with Some (OCoord _ _ md _ _) | Some (OData _ _ md _ _) => Some md | _ => None end.
Definition own_metadata (h : heap) (d : loc) : Prop :=
  match nth_error h d with
  | Some (OData _ _ md cl _) => match nth_error h cl with Some (OList cs) => match see_all (md_of h) cs with Some mds => NoDup (md :: mds) | None => False end | _ => False end
  | _ => False end.
(** no two coordinates have the same standard name, or no name both (an empty name is no hindrance) *)
Definition own_std_names (cs : list (lazy_view * str)) : Prop :=
  forall i j a b, nth_error cs i = Some a -> nth_error cs j = Some b -> v_std (v_md (fst a)) = v_std (v_md (fst b)) -> v_std (v_md (fst a)) <> Some [] -> i = j.
(** shape and range brought up to date *)
(** the range: the least and the greatest of the values that are not masked; none of no values; no numbers if all are masked or one of the others is not a number *)
Definition unmasked (cells : list cell) (x : option Q) : Prop := In (mkCell false x) cells.
Inductive is_range (cells : list cell) : list (option Q) -> Prop :=
| ir_empty : cells = [] -> is_range cells []
| ir_masked : cells <> [] -> (forall x, ~ unmasked cells x) -> is_range cells [None; None]
| ir_nan : unmasked cells None -> is_range cells [None; None]
| ir_values a b : ~ unmasked cells None -> unmasked cells (Some a) -> unmasked cells (Some b) -> (forall q, unmasked cells (Some q) -> a <= q /\ q <= b)%Q -> is_range cells [Some a; Some b].
Definition fresh_md (data : list nat * list cell) (m : md_view) : md_view := mkMd (v_name m) (v_std m) (v_long m) (fst data) (v_units m) (range_of (snd data)) (v_history m) (v_misc m).
Definition refreshed (v : lazy_view) : lazy_view := mkLazy (v_data v) (v_flat v) (fresh_md (v_data v) (v_md v)) (v_attrs v).
Definition refreshed_coord (c : lazy_view * str) : lazy_view * str := (refreshed (fst c), snd c).
(** the constructors spell units in one way *)
Definition spelled (from to : string) (u : str) : str := if str_eqb u (lit from) then lit to else u.
Definition coord_spelling : str -> str := spelled "deg" "degrees".
Definition data_spelling : str -> str := spelled "per kilometer per steradian" "kilometer^-1 steradian^-1".
(** new data with the metadata of other data, the units spelled in another way where the constructor does that; no attributes *)
Definition units_md (u : str -> str) (m : md_view) : md_view := mkMd (v_name m) (v_std m) (v_long m) (v_shape m) (u (v_units m)) (v_range m) (v_history m) (v_misc m).
Definition with_new_data (u : str -> str) (f : list nat * list cell -> list nat * list cell) (v : lazy_view) : lazy_view :=
  let data := f (v_data v) in mkLazy data ([length (snd data)], snd data) (fresh_md data (units_md u (v_md v))) [].
Definition made_from (f : list nat * list cell -> list nat * list cell) (v : lazy_view * list (lazy_view * str)) : lazy_view * list (lazy_view * str) :=
  (with_new_data data_spelling f (fst v), map (fun c => (with_new_data coord_spelling f (fst c), upper (snd c))) (snd v)).
(** the elements the keys select *)
Definition selected (k : keys) (data : list nat * list cell) : list nat * list cell := (k_shape k, map (fun i => nth i (snd data) (mkCell true None)) (k_positions k)).
(** as the constructor leaves it, with no attributes added since and nothing flattened with other values *)
Definition settled_lazy (u : str -> str) (v : lazy_view) : Prop :=
  v_attrs v = [] /\ v_shape (v_md v) = fst (v_data v) /\ v_range (v_md v) = range_of (snd (v_data v)) /\ u (v_units (v_md v)) = v_units (v_md v) /\ v_flat v = ([length (snd (v_data v))], snd (v_data v)).
Definition settled (v : lazy_view * list (lazy_view * str)) : Prop := settled_lazy data_spelling (fst v) /\ Forall (fun c => settled_lazy coord_spelling (fst c) /\ upper (snd c) = snd c) (snd v).

(** ** C38: data whose coordinates have missing values *)
Definition one_point_each (v : lazy_view * list (lazy_view * str)) : Prop := Forall (fun c => length (snd (v_data (fst c))) = length (snd (v_data (fst v)))) (snd v).
(** every coordinate has a value at this position *)
Definition usable (v : lazy_view * list (lazy_view * str)) (i : nat) : Prop := Forall (fun c => exists x, nth_error (snd (v_data (fst c))) i = Some x /\ is_there x) (snd v).
(** the positions to keep, in order *)
Definition to_keep (v : lazy_view * list (lazy_view * str)) (ps : list nat) : Prop :=
  Sorted.StronglySorted lt ps /\ forall i, In i ps <-> i < length (snd (v_data (fst v))) /\ usable v i.
Definition picked (ps : list nat) (data : list nat * list cell) : list nat * list cell := ([length ps], map (fun i => nth i (snd data) (mkCell true None)) ps).
(** the values and the points at these positions, shape and range brought up to date *)
Definition reduced (ps : list nat) (v w : lazy_view) : Prop :=
  v_data w = picked ps (v_data v) /\ v_md w = fresh_md (v_data w) (v_md v) /\ v_attrs w = v_attrs v.
Definition cleaned (ps : list nat) (v w : lazy_view * list (lazy_view * str)) : Prop :=
  reduced ps (fst v) (fst w) /\ Forall2 (fun c c' => reduced ps (fst c) (fst c') /\ v_flat (fst c') = v_data (fst c') /\ snd c' = snd c) (snd v) (snd w).

(** ** C60: data_flattened *)
(** data_flattened holds the elements of data, in order *)
Definition flat_right (v : lazy_view) : Prop := v_flat v = ([length (snd (v_data v))], snd (v_data v)).
(** the elements of all arrays lie in memory one after the other *)
Definition in_order (h : heap) : Prop := forall l shape b index, nth_error h l = Some (OArr shape b index) -> consecutive index = true.
(** the flattened array that a data object or coordinate keeps *)
Definition kept_flat (h : heap) (l : loc) : option loc := match nth_error h l with Some (OCoord _ f _ _ _) | Some (OData _ f _ _ _) => f | _ => None end.
(** every flattened array kept is a view of the elements of the data it was made of *)
Definition flats_are_views (h : heap) : Prop :=
  forall l o a f md at_ ax cl, nth_error h l = Some o -> o = OCoord a (Some f) md ax at_ \/ o = OData a (Some f) md cl at_ ->
  exists shape b index, nth_error h a = Some (OArr shape b index) /\ nth_error h f = Some (OArr [length index] b index).
(** whenever coords() is called, data_flattened has not been asked for since data was set, or there is no coordinate value missing *)
Definition coords_in_time (os : list call) (d : loc) (h : heap) : Prop :=
  forall os1 os2 h1, os = os1 ++ Coords :: os2 -> run os1 d h = Ok (tt, h1) -> kept_flat h1 d = None \/ exists v, see_data h1 d = Some v /\ all_there v.
