(** Reading a MODIS L2 variable: products/MODIS.py:298-332, with HDF_SDS (hdf_sd.py:38-92), LazyData.data (ungridded_data.py:266-288) and CommonDataList.append (common_data.py:275-303). *)
From Verif Require Import Base QBase IndexModel IndexSpec InterpModel.
From Coq Require Import List.
Import ListNotations.
Open Scope list_scope. Open Scope nat_scope.

(** HDF_SDS, hdf_sd.py:38-52: the variable in one file, and which part of it [get] reads (None: all).  The values are what the file holds (packed); masking and
    scaling (_get_MODIS_SDS_data, MODIS.py:8-65) are in ReadModel (C41).  Arrays are flat: MODIS.py:21-22 squeezes the shape. *)
Record sds := mkSds { s_dims : list nat; s_values : list Z; s_start : option (list nat); s_count : option (list nat) }.
(** pyhdf's SDS.get(start, count): a hyperslab, in C order; it must lie inside *)
Definition add_index (a b : list nat) : list nat := map (fun ab : nat * nat => fst ab + snd ab) (combine a b).
Definition inside (dims start count : list nat) : bool :=
  (length start =? length dims) && (length count =? length dims) && forallb (fun d : nat * nat => fst d <=? snd d) (combine (add_index start count) dims).
(** hdf_sd.py:76-92 *)
Definition sds_get (s : sds) : res (list Z) :=
  let start := match s_start s with Some x => x | None => repeat 0 (length (s_dims s)) end in
  let count := match s_count s with Some x => x | None => s_dims s end in
  if inside (s_dims s) start count
  then Ok (map (fun off => nth (flat_pos (s_dims s) (add_index start off)) (s_values s) 0%Z) (product (map (seq 0) count)))
  else Raises ValueError.

(** The readers are shared by all elements of the list; an element has its values once they were asked for *)
Record state := mkState { readers : list sds; elements : list (option (list Z)) }.
(** ungridded_data.py:272-280: the values of all files, one after the other (arrays that do not fit together are not modelled) *)
Fixpoint read_all (rs : list sds) : res (list Z) := match rs with [] => Ok [] | r :: rs => bind (sds_get r) (fun a => bind (read_all rs) (fun b => Ok (a ++ b))) end.
(** LazyData.data, 266-288, of element k.  Taking out points with missing coordinates comes afterwards, for every element alike: not modelled *)
Definition load (k : nat) (st : state) : res state :=
  match nth_error (elements st) k with
  | Some None => bind (read_all (readers st)) (fun v => Ok (mkState (readers st) (set_nth k (Some v) (elements st))))
  | Some (Some _) => Ok st
  | None => Raises IndexError
  end.
(** common_data.py:290-303: if the list is not empty, the coordinates of its first element and of the new one are compared, and coords() (ungridded_data.py:624-630)
    loads the data.  All elements have copies of the same coordinates, so nothing is refused. *)
Definition append (st : state) : res state :=
  let new := mkState (readers st) (elements st ++ [None]) in
  if 0 <? length (elements st) then bind (load 0 new) (load (length (elements st))) else Ok new.
(** MODIS.py:327-331; what it reads of the last two dimensions is all *)
Definition point_at (indices : list nat) (r : sds) : sds :=
  mkSds (s_dims r) (s_values r) (Some (indices ++ [0; 0])) (Some (repeat 1 (length indices) ++ skipn (length (s_dims r) - 2) (s_dims r))).
Fixpoint fill (all : list (list nat)) (st : state) : res state :=
  match all with [] => Ok st | indices :: all => bind (append (mkState (map (point_at indices) (readers st)) (elements st))) (fill all) end.
Definition create_data_object (var : list sds) : res state :=
  match var with
  | [] => Raises IndexError
  | v :: _ =>
    let ndim := length (s_dims v) in
    if ndim =? 2 then Ok (mkState var [None])                      (* one UngriddedData *)
    else if ndim <? 2 then Raises NotImplementedError
    else fill (product (map (seq 0) (firstn (ndim - 2) (s_dims v)))) (mkState var [])
  end.
(** the user asks for elements, in any order *)
Fixpoint access (ks : list nat) (st : state) : res state := match ks with [] => Ok st | k :: ks => bind (load k st) (access ks) end.
Definition look (k : nat) (st : state) : res (list Z) :=
  bind (load k st) (fun st => match nth_error (elements st) k with Some (Some v) => Ok v | _ => Raises IndexError end).
