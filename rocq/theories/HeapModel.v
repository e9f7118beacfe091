(** Ungridded data as objects in memory, so that copies and shared parts can be told apart:
    cis/data_io/ungridded_data.py, cis/data_io/Coord.py. *)
From Coq Require Import String.
From Verif Require Import Base PyStr QBase LonModel.
From Coq Require Import List.
Import ListNotations.
Open Scope string_scope. Open Scope list_scope. Open Scope nat_scope. Notation length := List.length.

(** ** Memory: a list of objects, an address is a position; what is made is put at the end, nothing is ever freed *)
Definition loc := nat.
(** one element of a numpy masked array: masked, and the value, None for NaN.  numpy keeps values and mask in two buffers; here they are in one. *)
Record cell := mkCell { masked : bool; value : option Q }.
(** Metadata, ungridded_data.py:27-51, but factor, offset and missing_value; misc is a dictionary of its own.  Units are compared as strings. *)
Record meta := mkMeta { m_name : str; m_std : option str; m_long : str; m_shape : list nat; m_units : str; m_range : list (option Q); m_history : str; m_misc : loc }.
Inductive obj :=
| OBuf (cells : list cell)                                        (* the memory of numpy arrays *)
| OArr (shape : list nat) (buf : loc) (index : list nat)          (* a numpy array: a view of a buffer, its elements in order *)
| ODict (items : list (str * str))
| OMeta (m : meta)
| OCoord (data : loc) (flat : option loc) (md : loc) (axis : str) (attrs : loc)  (* Coord: _data, _data_flattened, metadata, axis, attributes *)
| OList (items : list loc)                                        (* CoordList or UngriddedDataList *)
| OData (data : loc) (flat : option loc) (md : loc) (coords : loc) (attrs : loc). (* UngriddedData, loaded *)
Definition heap := list obj.

(** a computation on the memory; what was changed before an exception is not followed *)
Definition M (A : Type) := heap -> res (A * heap).
Definition ret {A} (a : A) : M A := fun h => Ok (a, h).
Definition fail {A} (e : exn) : M A := fun _ => Raises e.
Definition mbind {A B} (m : M A) (f : A -> M B) : M B := fun h => bind (m h) (fun ah => f (fst ah) (snd ah)).
Declare Scope mem_scope. Delimit Scope mem_scope with mem. Open Scope mem_scope.
Notation "x <~ e ;; f" := (mbind e (fun x => f)) (at level 61, e at next level, right associativity) : mem_scope.
Notation "e ;;; f" := (mbind e (fun _ => f)) (at level 61, right associativity) : mem_scope.
Definition alloc (o : obj) : M loc := fun h => Ok (length h, h ++ [o]).
Fixpoint set_nth {A} (n : nat) (x : A) (l : list A) : list A := match l, n with [], _ => [] | _ :: l, O => x :: l | a :: l, S n => a :: set_nth n x l end.
Definition update (l : loc) (o : obj) : M unit := fun h => if l <? length h then Ok (tt, set_nth l o h) else Raises TypeError.
(** reading objects; an object of another class has not got the attributes: AttributeError *)
Definition get (l : loc) : M obj := fun h => match nth_error h l with Some o => Ok (o, h) | None => Raises TypeError end.
Definition get_meta (l : loc) : M meta := o <~ get l ;; match o with OMeta m => ret m | _ => fail AttributeError end.
Definition get_dict (l : loc) : M (list (str * str)) := o <~ get l ;; match o with ODict d => ret d | _ => fail AttributeError end.
Definition get_list (l : loc) : M (list loc) := o <~ get l ;; match o with OList d => ret d | _ => fail TypeError end.
(** the shape and the elements of an array *)
Definition read_cells (cells : list cell) (index : list nat) : list cell := map (fun i => nth i cells (mkCell true None)) index.
Definition get_array (l : loc) : M (list nat * list cell) :=
  o <~ get l ;; match o with
  | OArr shape b index => o <~ get b ;; match o with OBuf cells => ret (shape, read_cells cells index) | _ => fail AttributeError end
  | _ => fail AttributeError end.
Fixpoint each {A} (f : A -> M unit) (l : list A) : M unit := match l with [] => ret tt | x :: l => f x ;;; each f l end.
Fixpoint map_each {A B} (f : A -> M B) (l : list A) : M (list B) := match l with [] => ret [] | x :: l => y <~ f x ;; ys <~ map_each f l ;; ret (y :: ys) end.

(** ** numpy *)
Definition new_array (shape : list nat) (cells : list cell) : M loc := b <~ alloc (OBuf cells) ;; alloc (OArr shape b (seq 0 (length cells))).
(** numpy.ma.copy *)
Definition np_copy (a : loc) : M loc := sc <~ get_array a ;; new_array (fst sc) (snd sc).
(** a.ravel(): a view of the same memory if the elements lie there one after the other, a copy if not *)
Fixpoint consecutive (l : list nat) : bool := match l with i :: ((j :: _) as l') => (j =? S i) && consecutive l' | _ => true end.
Definition np_ravel (a : loc) : M loc :=
  o <~ get a ;; match o with
  | OArr shape b index => if consecutive index then alloc (OArr [length index] b index) else sc <~ get_array a ;; new_array [length index] (snd sc)
  | _ => fail AttributeError end.
(** a[keys].copy(): which elements the keys select is numpy's affair: the shape of what is selected and the positions of its elements in the flattened array.
    A single element is no array (so LazyData refuses it). *)
Record keys := mkKeys { k_shape : list nat; k_positions : list nat }.
Definition np_getitem (a : loc) (k : keys) : M loc :=
  sc <~ get_array a ;;
  if forallb (fun i => i <? length (snd sc)) (k_positions k) then
    match k_shape k with [] => fail InvalidDataTypeError | _ => new_array (k_shape k) (map (fun i => nth i (snd sc) (mkCell true None)) (k_positions k)) end
  else fail IndexError.

(** ** LazyData: update_shape, update_range, 380-405 (the range of standard times as numbers); data.setter 328-331, data_flattened 333-340 *)
Definition is_masked_or_nan (c : cell) : bool := masked c || match value c with None => true | Some _ => false end.
Definition least (a b : Q) : Q := if Qleb a b then a else b.
Definition greatest (a b : Q) : Q := if Qleb a b then b else a.
(** min and max of the elements that are not masked: none of an empty array; NaN if there is one; masked if all are *)
Fixpoint extreme (f : Q -> Q -> Q) (l : list cell) : option (option Q) :=  (* None: nothing unmasked; Some None: NaN *)
  match l with
  | [] => None
  | c :: l => if masked c then extreme f l else
      match value c, extreme f l with Some x, None => Some (Some x) | Some x, Some (Some y) => Some (Some (f x y)) | _, _ => Some None end
  end.
Definition range_of (cells : list cell) : list (option Q) :=
  match cells with [] => [] | _ => let get o := match o with Some v => v | None => None end in [get (extreme least cells); get (extreme greatest cells)] end.
Definition with_shape (m : meta) (s : list nat) : meta := mkMeta (m_name m) (m_std m) (m_long m) s (m_units m) (m_range m) (m_history m) (m_misc m).
Definition with_range (m : meta) (r : list (option Q)) : meta := mkMeta (m_name m) (m_std m) (m_long m) (m_shape m) (m_units m) r (m_history m) (m_misc m).
Definition with_misc (m : meta) (l : loc) : meta := mkMeta (m_name m) (m_std m) (m_long m) (m_shape m) (m_units m) (m_range m) (m_history m) l.
Definition with_units (m : meta) (u : str) : meta := mkMeta (m_name m) (m_std m) (m_long m) (m_shape m) u (m_range m) (m_history m) (m_misc m).
Definition with_history (m : meta) (t : str) : meta := mkMeta (m_name m) (m_std m) (m_long m) (m_shape m) (m_units m) (m_range m) t (m_misc m).
Definition update_shape_range (a md : loc) : M unit :=
  sc <~ get_array a ;; m <~ get_meta md ;; update md (OMeta (with_range (with_shape m (fst sc)) (range_of (snd sc)))).
(** which array, metadata and attributes an UngriddedData or Coord has *)
Record handle := mkHandle { h_data : loc; h_flat : option loc; h_md : loc; h_attrs : loc; h_obj : obj }.
Definition get_lazy (l : loc) : M handle :=
  o <~ get l ;; match o with
  | OCoord d f m _ at_ => ret (mkHandle d f m at_ o)
  | OData d f m _ at_ => ret (mkHandle d f m at_ o)
  | _ => fail AttributeError end.
Definition with_data (o : obj) (d : loc) (f : option loc) : obj :=
  match o with OCoord _ _ m ax at_ => OCoord d f m ax at_ | OData _ _ m cs at_ => OData d f m cs at_ | o => o end.
(** the setter of data *)
Definition set_data (l a : loc) : M unit := x <~ get_lazy l ;; update l (with_data (h_obj x) a None).
(** self._data = a, as _post_process does with the values and Coord.convert_... with the points *)
Definition set_data_only (l a : loc) : M unit := x <~ get_lazy l ;; update l (with_data (h_obj x) a (h_flat x)).
Definition data_flattened (l : loc) : M loc :=
  x <~ get_lazy l ;; match h_flat x with Some f => ret f | None => f <~ np_ravel (h_data x) ;; update l (with_data (h_obj x) (h_data x) (Some f)) ;;; ret f end.
(** copy.deepcopy of a Metadata *)
Definition deepcopy_meta (md : loc) : M loc := m <~ get_meta md ;; d <~ get_dict (m_misc m) ;; l <~ alloc (ODict d) ;; alloc (OMeta (with_misc m l)).

(** ** UngriddedData._post_process, 466-500, of loaded data *)
Definition missing_of (cells : list cell) : list bool := map is_masked_or_nan cells.
Definition or_mask (a b : list bool) : list bool := map (fun ab : bool * bool => fst ab || snd ab) (combine a b).
Definition compress {A} (mask : list bool) (l : list A) : list A := map snd (filter (fun mx : bool * A => negb (fst mx)) (combine mask l)).
(** 476-482: a coordinate that has not one point per value is refused (numpy would broadcast a single point; not modelled) *)
Fixpoint combined_mask (cs : list loc) (mask : list bool) : M (list bool) :=
  match cs with
  | [] => ret mask
  | c :: cs =>
    x <~ get_lazy c ;; sc <~ get_array (h_data x) ;;
    if length (snd sc) =? length mask then update_shape_range (h_data x) (h_md x) ;;; combined_mask cs (or_mask mask (missing_of (snd sc))) else fail ValueError
  end.
(** 488-491; the compressed points are no longer masked *)
Definition compress_coord (mask : list bool) (c : loc) : M unit :=
  x <~ get_lazy c ;; sc <~ get_array (h_data x) ;;
  if length (snd sc) =? length mask then
    let p := map (fun p => mkCell false (value p)) (compress mask (snd sc)) in
    a <~ new_array [length p] p ;; set_data c a ;;; update_shape_range a (h_md x)
  else fail ValueError.
Definition post_process (d : loc) : M unit :=
  o <~ get d ;; match o with
  | OData a _ md cl _ =>
    sc <~ get_array a ;; cs <~ get_list cl ;;
    mask <~ combined_mask cs (repeat false (length (snd sc))) ;;
    if existsb (fun b => b) mask then
      each (compress_coord mask) cs ;;;
      (let v := compress mask (snd sc) in
       b <~ new_array [length v] v ;; set_data_only d b ;;; update_shape_range b md)
    else update_shape_range a md
  | _ => fail AttributeError end.
(** coords() without criteria, 624-630: the list itself *)
Definition coords (d : loc) : M loc := post_process d ;;; o <~ get d ;; match o with OData _ _ _ cl _ => ret cl | _ => fail AttributeError end.

(** ** Making objects: LazyData.__init__ 178-215, Coord.__init__, Coord.py:24-36, UngriddedData.__init__, 434-459 *)
Definition coord_units (u : str) : str := if str_eqb u (lit "deg") then lit "degrees" else u.
Definition data_units (u : str) : str := if str_eqb u (lit "per kilometer per steradian") then lit "kilometer^-1 steradian^-1" else u.
Definition new_coord (a md : loc) (axis : str) : M loc :=
  at_ <~ alloc (ODict []) ;; l <~ alloc (OCoord a None md (upper axis) at_) ;;
  m <~ get_meta md ;; update md (OMeta (with_units m (coord_units (m_units m)))) ;;; ret l.
Definition new_data (a md cl : loc) : M loc :=
  m <~ get_meta md ;; update md (OMeta (with_units m (data_units (m_units m)))) ;;;
  at_ <~ alloc (ODict []) ;; l <~ alloc (OData a None md cl at_) ;; post_process l ;;; ret l.

(** ** Copies *)
(** Coord.copy, Coord.py:115-124, without the data argument *)
Definition coord_parts (c : loc) : M (loc * loc * str) := o <~ get c ;; match o with OCoord a _ md ax _ => ret (a, md, ax) | _ => fail AttributeError end.
Definition coord_copy (c : loc) : M loc := p <~ coord_parts c ;; a <~ np_copy (fst (fst p)) ;; md <~ deepcopy_meta (snd (fst p)) ;; new_coord a md (snd p).
(** Coord.__getitem__, 38-47 *)
Definition coord_getitem (k : keys) (c : loc) : M loc := p <~ coord_parts c ;; a <~ np_getitem (fst (fst p)) k ;; md <~ deepcopy_meta (snd (fst p)) ;; new_coord a md (snd p).
(** Coord.__eq__, 57-58, and CoordList.append, 140-150 *)
Definition std_eqb (a b : option str) : bool := match a, b with Some a, Some b => str_eqb a b | None, None => true | _, _ => false end.
Definition std_of (c : loc) : M (option str) := p <~ coord_parts c ;; m <~ get_meta (snd (fst p)) ;; ret (m_std m).
Definition coords_append (l : list loc) (c : loc) : M (list loc) :=
  s <~ std_of c ;; ss <~ map_each std_of l ;;
  if existsb (fun t => std_eqb s t && negb (std_eqb s (Some []))) ss then fail DuplicateCoordinateError else ret (l ++ [c]).
(** CoordList.copy, 286-299 *)
Fixpoint copy_into (out cs : list loc) : M (list loc) := match cs with [] => ret out | c :: cs => c' <~ coord_copy c ;; out <~ coords_append out c' ;; copy_into out cs end.
Definition coordlist_copy (cl : loc) : M loc := cs <~ get_list cl ;; out <~ copy_into [] cs ;; alloc (OList out).
(** UngriddedData.copy, 549-563 *)
Definition data_copy (data : option loc) (d : loc) : M loc :=
  o <~ get d ;; match o with
  | OData a _ md _ _ =>
    a' <~ (match data with Some x => ret x | None => np_copy a end) ;;
    cl <~ coords d ;; cl' <~ coordlist_copy cl ;; md' <~ deepcopy_meta md ;; new_data a' md' cl'
  | _ => fail AttributeError end.
(** UngriddedData.__getitem__, 534-547; the values are taken after coords() *)
Definition data_getitem (k : keys) (d : loc) : M loc :=
  cl <~ coords d ;; cs <~ get_list cl ;; cs' <~ map_each (coord_getitem k) cs ;;
  o <~ get d ;; match o with
  | OData a _ md _ _ => a' <~ np_getitem a k ;; md' <~ deepcopy_meta md ;; cl' <~ alloc (OList cs') ;; new_data a' md' cl'
  | _ => fail AttributeError end.
(** CommonDataList.append, common_data.py:275-303, of an UngriddedData to an UngriddedDataList *)
Definition coord_shapes (d : loc) : M (list (list nat)) :=
  cl <~ coords d ;; cs <~ get_list cl ;; map_each (fun c => x <~ get_lazy c ;; sc <~ get_array (h_data x) ;; ret (fst sc)) cs.
Definition zip_differ (a b : list nat) : bool := existsb (fun ab : nat * nat => negb (fst ab =? snd ab)) (combine a b).
Definition list_append (l : list loc) (d : loc) : M (list loc) :=
  match l with
  | [] => ret [d]
  | first :: _ =>
    s1 <~ coord_shapes first ;; s2 <~ coord_shapes d ;;
    if negb (length s1 =? length s2) then fail ValueError
    else if existsb (fun ab : list nat * list nat => zip_differ (fst ab) (snd ab)) (combine s1 s2) then fail ValueError else ret (l ++ [d])
  end.
(** UngriddedDataList.copy, 1084-1095 *)
Fixpoint copy_all_into (out ds : list loc) : M (list loc) := match ds with [] => ret out | d :: ds => d' <~ data_copy None d ;; out <~ list_append out d' ;; copy_all_into out ds end.
Definition datalist_copy (dl : loc) : M loc := ds <~ get_list dl ;; out <~ copy_all_into [] ds ;; alloc (OList out).

(** ** make_new_with_same_coordinates, 502-532, with an array of data; history without the time stamp *)
Definition same_coords_flat (cs : list loc) : M (list loc) :=
  map_each (fun c => p <~ coord_parts c ;; a <~ data_flattened c ;; new_coord a (snd (fst p)) (snd p)) cs.
Definition make_new (a : loc) (name : str) (flatten : bool) (d : loc) : M loc :=
  o <~ get d ;; match o with
  | OData _ _ _ cl _ =>
    misc <~ alloc (ODict []) ;; md <~ alloc (OMeta (mkMeta name (Some []) [] [] [] [] [] misc)) ;;
    if flatten then
      sc <~ get_array a ;; a' <~ new_array [length (snd sc)] (snd sc) ;; cs <~ get_list cl ;; cs' <~ same_coords_flat cs ;; cl' <~ alloc (OList cs') ;; new_data a' md cl'
    else new_data a md cl
  | _ => fail AttributeError end.

(** ** Changing data through its interface *)
Inductive part := Whole | Coordinate (k : nat).
Inductive call :=
| SetPoint (p : part) (i : nat) (c : cell)              (* d.data.flat[i] = ..., or of a coordinate *)
| SetData (p : part) (shape : list nat) (cells : list cell) (* d.data = <a new array> *)
| SetUnits (p : part) (u : str)                         (* d.units = u, 261-263 *)
| AddHistory (p : part) (t : str)                       (* d.add_history(t), 345-355, without the time stamp *)
| AddAttribute (p : part) (k v : str)                   (* d.add_attributes, 357-364 *)
| RemoveAttribute (p : part) (k : str)                  (* d.remove_attribute, 366-373 *)
| SetMisc (p : part) (k v : str)                        (* d.metadata.misc[k] = v *)
| SetLongitudeRange (k : nat) (start : Q)               (* Coord.set_longitude_range, Coord.py:106-113, of a coordinate *)
| Flatten (p : part)                                    (* d.data_flattened *)
| Coords.                                               (* d.coords() *)
Definition find_part (p : part) (d : loc) : M loc :=
  match p with
  | Whole => ret d
  | Coordinate k => o <~ get d ;; match o with OData _ _ _ cl _ => cs <~ get_list cl ;; match nth_error cs k with Some c => ret c | None => fail IndexError end | _ => fail AttributeError end
  end.
Definition set_point (a : loc) (i : nat) (c : cell) : M unit :=
  o <~ get a ;; match o with
  | OArr _ b index => match nth_error index i with
      | Some j => o <~ get b ;; match o with OBuf cells => update b (OBuf (set_nth j c cells)) | _ => fail AttributeError end
      | None => fail IndexError end
  | _ => fail AttributeError end.
Definition set_item (k v : str) (d : list (str * str)) : list (str * str) :=
  if existsb (fun kv => str_eqb (fst kv) k) d then map (fun kv => if str_eqb (fst kv) k then (k, v) else kv) d else d ++ [(k, v)].
Definition change_meta (f : meta -> meta) (l : loc) : M unit := x <~ get_lazy l ;; m <~ get_meta (h_md x) ;; update (h_md x) (OMeta (f m)).
Definition change_dict (f : list (str * str) -> list (str * str)) (l : loc) : M unit := d <~ get_dict l ;; update l (ODict (f d)).
Definition perform (o : call) (d : loc) : M unit :=
  match o with
  | SetPoint p i c => l <~ find_part p d ;; x <~ get_lazy l ;; set_point (h_data x) i c
  | SetData p shape cells => l <~ find_part p d ;; a <~ new_array shape cells ;; set_data l a
  | SetUnits p u => l <~ find_part p d ;; change_meta (fun m => with_units m u) l
  | AddHistory p t => l <~ find_part p d ;; change_meta (fun m => with_history m (match m_history m with [] => t | old => old ++ lit "
" ++ t end)) l
  | AddAttribute p k v => l <~ find_part p d ;; x <~ get_lazy l ;; change_dict (set_item k v) (h_attrs x)
  | RemoveAttribute p k => l <~ find_part p d ;; x <~ get_lazy l ;; change_dict (filter (fun kv => negb (str_eqb (fst kv) k))) (h_attrs x)
  | SetMisc p k v => l <~ find_part p d ;; x <~ get_lazy l ;; m <~ get_meta (h_md x) ;; change_dict (set_item k v) (m_misc m)
  | SetLongitudeRange k start => l <~ find_part (Coordinate k) d ;; x <~ get_lazy l ;; sc <~ get_array (h_data x) ;;
      a <~ new_array (fst sc) (map (fun c => mkCell (masked c) (option_map (wrap_lon start) (value c))) (snd sc)) ;; set_data l a
  | Flatten p => l <~ find_part p d ;; _ <~ data_flattened l ;; ret tt
  | Coords => _ <~ coords d ;; ret tt
  end.
Fixpoint run (os : list call) (d : loc) : M unit := match os with [] => ret tt | o :: os => perform o d ;;; run os d end.
