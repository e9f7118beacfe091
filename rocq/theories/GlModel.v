(** Lists of gridded data: cis/data_io/gridded_data.py (GriddedData's construction and attributes, GriddedDataList, the choice of a collapse kernel), the shared part of
    lists in cis/data_io/common_data.py:225-366, and the metadata set by cis/aggregation/collapse_kernels.py.
    Objects are mutable and shared: cubes and lists of file names live at addresses of a heap.  Iris' own methods (interpolate, regrid, extract, transpose...)
    are parameters: functions from the contents of a cube to a result. *)
From Coq Require Import String Ascii.
From Verif Require Import Base PyStr FileListModel UngrModel.

(** A cube.  [k_gridded]: its class is GriddedData (a plain iris cube otherwise); [k_slots]: properties of the cube set by name (units, standard_name...);
    [k_coords]: names and shapes of its coordinates; [k_files]: the address of the list of file names it refers to (0: the class attribute, common_data.py:10). *)
Record cube := mkCube { k_gridded : bool; k_local : list str; k_attrs : list (str * str); k_slots : list (str * str); k_var : str;
  k_coords : list (str * list nat); k_ndim : nat; k_data : list Z; k_files : nat }.
Record heap := mkHeap { h_cubes : list cube; h_lists : list (list str) }.
Definition no_cube : cube := mkCube false [] [] [] [] [] 0 [] 0.
Definition get (h : heap) (a : nat) : cube := nth a (h_cubes h) no_cube.
Fixpoint upd {A} (l : list A) (i : nat) (x : A) : list A :=
  match l, i with [], _ => [] | _ :: l, 0 => x :: l | y :: l, S i => y :: upd l i x end.
Definition put (h : heap) (a : nat) (c : cube) : heap := mkHeap (upd (h_cubes h) a c) (h_lists h).
Definition alloc (h : heap) (c : cube) : heap * nat := (mkHeap (h_cubes h ++ [c]) (h_lists h), List.length (h_cubes h)).

(** GriddedData.make_from_cube, gridded_data.py:72-82: the class of the object itself is changed *)
Definition wrap_cube (c : cube) : cube :=
  if k_gridded c then c else mkCube true [] (k_attrs c) (k_slots c) (k_var c) (k_coords c) (k_ndim c) (k_data c) (k_files c).
Definition wrap (h : heap) (a : nat) : heap := put h a (wrap_cube (get h a)).
(** What may be appended: a cube (gridded or not), an ungridded data object, something without is_gridded *)
Inductive obj := OCube (a : nat) | OUngridded | OOther.
Definition item_at (h : heap) (a : nat) : item := mkItem true (map snd (k_coords (get h a))).
(** GriddedDataList.append, 426-429, and CommonDataList.append, common_data.py:275-304 (the check is [UngrModel.list_append]) *)
Definition append (h : heap) (l : list nat) (o : obj) : heap * res (list nat) :=
  match o with
  | OCube a => let h := wrap h a in
      match list_append true (map (item_at h) l) (item_at h a) with Ok _ => (h, Ok (l ++ [a])) | Raises e => (h, Raises e) end
  | _ => (h, Raises TypeError)
  end.
(** CommonDataList.extend, 306-309; the constructor, 232-234 ([l] empty) *)
Fixpoint extend (h : heap) (l : list nat) (os : list obj) : heap * res (list nat) :=
  match os with
  | [] => (h, Ok l)
  | o :: os => match append h l o with (h, Ok l) => extend h l os | (h, Raises e) => (h, Raises e) end
  end.
(** aggregated_by 495-506, interpolate 523-533, regrid 535-545: [op] is the method of the cube; its result is a new object *)
Fixpoint map_op (op : cube -> res cube) (h : heap) (l out : list nat) : heap * res (list nat) :=
  match l with
  | [] => (h, Ok out)
  | a :: l => match op (get h a) with
      | Raises e => (h, Raises e)
      | Ok c => let '(h, b) := alloc h c in match append h out (OCube b) with (h, Ok out) => map_op op h l out | (h, Raises e) => (h, Raises e) end
      end
  end.
(** intersection 547-560, extract 562-575.  The method is called twice on every item; the first result, only compared with None, is not kept in the heap. *)
Fixpoint filter_op (op : cube -> res (option cube)) (h : heap) (l out : list nat) : heap * res (option (list nat)) :=
  match l with
  | [] => (h, Ok (Some out))
  | a :: l => match op (get h a) with
      | Raises e => (h, Raises e)
      | Ok None => (h, Ok None)
      | Ok (Some c) => let '(h, b) := alloc h c in match append h out (OCube b) with (h, Ok out) => filter_op op h l out | (h, Raises e) => (h, Raises e) end
      end
  end.
(** collapsed 508-521: every item gives a list *)
Fixpoint alloc_all (h : heap) (cs : list cube) : heap * list nat :=
  match cs with [] => (h, []) | c :: cs => let '(h, b) := alloc h c in let '(h, bs) := alloc_all h cs in (h, b :: bs) end.
Fixpoint flat_op (op : cube -> res (list cube)) (h : heap) (l out : list nat) : heap * res (list nat) :=
  match l with
  | [] => (h, Ok out)
  | a :: l => match op (get h a) with
      | Raises e => (h, Raises e)
      | Ok cs => let '(h, bs) := alloc_all h cs in match extend h out (map OCube bs) with (h, Ok out) => flat_op op h l out | (h, Raises e) => (h, Raises e) end
      end
  end.
(** transpose 577-584, add_aux_coord 455-463, remove_coord 475-483, add_dim_coord 485-493, CommonDataList.add_history 349-356, set_longitude_range 365-373:
    the objects are changed one after the other *)
Fixpoint in_place (op : cube -> res cube) (h : heap) (l : list nat) : heap * res unit :=
  match l with
  | [] => (h, Ok tt)
  | a :: l => match op (get h a) with Raises e => (h, Raises e) | Ok c => in_place op (put h a c) l end
  end.
(** coord 445-453, coord_dims 465-473, dim_coords, aux_coords, ndim 586-608, coords (common_data.py:358-363), _get_coord: asked of the first item *)
Definition of_first {A} (ask : cube -> res A) (h : heap) (l : list nat) : res A :=
  match l with [] => Raises IndexError | a :: _ => ask (get h a) end.
(** var_name, common_data.py:321-329 *)
Definition var_names (h : heap) (l : list nat) : list str := map (fun a => k_var (get h a)) l.

(** filenames, common_data.py:10 and 331-347.  The getter concatenates; the setter extends the list every item refers to, with the list at address [r] *)
Definition filenames_of (h : heap) (a : nat) : list str := nth (k_files (get h a)) (h_lists h) [].
Definition list_filenames (h : heap) (l : list nat) : list str := concat (map (filenames_of h) l).
Fixpoint set_filenames (h : heap) (l : list nat) (r : nat) : heap :=
  match l with
  | [] => h
  | a :: l => let f := k_files (get h a) in set_filenames (mkHeap (h_cubes h) (upd (h_lists h) f (nth f (h_lists h) [] ++ nth r (h_lists h) []))) l r
  end.
(** data.filenames = ... on one object, as DataReader.read_data_list does for every variable with the same list (data_reader.py:89-91) *)
Definition own_filenames (h : heap) (a r : nat) : heap :=
  let c := get h a in put h a (mkCube (k_gridded c) (k_local c) (k_attrs c) (k_slots c) (k_var c) (k_coords c) (k_ndim c) (k_data c) r).
Fixpoint read_filenames (h : heap) (l : list nat) (r : nat) : heap :=
  match l with [] => h | a :: l => read_filenames (own_filenames h a r) l r end.

(** ** Attributes *)
Definition with_attrs (c : cube) (local : list str) (attrs slots : list (str * str)) : cube :=
  mkCube (k_gridded c) local attrs slots (k_var c) (k_coords c) (k_ndim c) (k_data c) (k_files c).
(** One step of add_attributes, 262-268.  [forbidden]: the names iris' attribute dictionary rejects with ValueError; [accepts]: whether the property of that name takes
    the value (ValueError, only reported, otherwise). *)
Definition add_attribute (forbidden : str -> bool) (accepts : str -> str -> bool) (c : cube) (kv : str * str) : cube :=
  if negb (forbidden (fst kv)) then with_attrs c (k_local c) (dict_set (k_attrs c) (fst kv) (snd kv)) (k_slots c)
  else if accepts (fst kv) (snd kv) then with_attrs c (k_local c) (k_attrs c) (dict_set (k_slots c) (fst kv) (snd kv)) else c.
(** add_attributes, 256-270 *)
Definition add_attributes (forbidden : str -> bool) (accepts : str -> str -> bool) (attributes : list (str * str)) (c : cube) : cube :=
  let c := fold_left (add_attribute forbidden accepts) attributes c in
  with_attrs c (k_local c ++ map fst attributes) (k_attrs c) (k_slots c).
(** dict.pop(key, None) and list.remove(key): the first occurrence only *)
Definition dict_pop (d : list (str * str)) (k : str) : list (str * str) := filter (fun kv => negb (str_eqb (fst kv) k)) d.
Fixpoint remove_first (l : list str) (k : str) : list str :=
  match l with [] => [] | x :: l => if str_eqb x k then l else x :: remove_first l k end.
(** remove_attribute, 272-282 *)
Definition remove_attribute (k : str) (c : cube) : cube := with_attrs c (remove_first (k_local c) k) (dict_pop (k_attrs c) k) (k_slots c).

(** ** Saving: GriddedData.save_data 284-295, GriddedDataList.save_data 431-443 *)
Record save_args := mkSave { sv_local : list str; sv_unlimited : list str }.
Definition has_coord (n : str) (c : cube) : bool := existsb (fun k => str_eqb (fst k) n) (k_coords c).
Definition unlimited (c : cube) : list str := if has_coord (lit "time") c then [lit "time"] else [].
Definition save_data (c : cube) : save_args := mkSave (k_local c) (unlimited c).
Definition save_list (h : heap) (l : list nat) : res save_args := of_first (fun c => Ok (mkSave [] (unlimited c))) h l.
(** iris.save (contract): an attribute is written for the whole file when it is not named in local_keys and all the cubes have it, with the same value;
    on the variables otherwise *)
Definition same_attr (k : str) (a b : cube) : bool :=
  match dict_get (k_attrs a) k, dict_get (k_attrs b) k with Some x, Some y => str_eqb x y | _, _ => false end.
Definition written_globally (s : save_args) (cs : list cube) (k : str) : bool :=
  negb (existsb (str_eqb k) (sv_local s)) && match cs with [] => false | c :: _ => forallb (same_attr k c) cs end.

(** ** Construction, 50-70, and make_new_with_same_coordinates, 84-104 *)
(** The keyword arguments: an outer None when absent.  [w_rest]: iris accepts everything else (shapes, coordinates...). *)
Record kwargs := mkKw { w_std : option (option str); w_units : option (option str); w_rest : bool }.
Record made := mkMade { m_std : option str; m_units : option str }.
Definition join_opt {A} (o : option (option A)) : option A := match o with Some x => x | None => None end.
(** iris.cube.Cube.__init__ (contract): ValueError for units it does not know or for anything else it does not accept *)
Definition cube_init (unit_ok : str -> bool) (w : kwargs) : res made :=
  match join_opt (w_units w) with
  | Some u => if negb (unit_ok u) then Raises ValueError else if w_rest w then Ok (mkMade (join_opt (w_std w)) (Some u)) else Raises ValueError
  | None => if w_rest w then Ok (mkMade (join_opt (w_std w)) None) else Raises ValueError
  end.
Definition gridded_init (std_ok unit_ok : str -> bool) (w : kwargs) : res made :=
  let std := match w_std w with Some (Some s) => if std_ok s then w_std w else None | _ => None end in
  let w := mkKw std (w_units w) (w_rest w) in
  match cube_init unit_ok w with
  | Raises ValueError => match w_units w with None => Raises KeyError | Some _ => cube_init unit_ok (mkKw std None (w_rest w)) end
  | r => r
  end.
(** add_history, 171-181, given the time stamp; TypeError for a history of None *)
Definition add_history (stamp : str) (text : option str) (attrs : list (str * str)) : res (list (str * str)) :=
  match text with
  | None => Raises TypeError
  | Some t => Ok (match dict_get attrs (lit "history") with
                  | None => dict_set attrs (lit "history") (stamp ++ t)
                  | Some old => dict_set attrs (lit "history") (old ++ ["010"%char] ++ stamp ++ t) end)
  end.
(** the history property, 163-169 *)
Definition history (attrs : list (str * str)) : res str := match dict_get attrs (lit "history") with Some v => Ok v | None => Raises KeyError end.
Definition make_new (std_ok unit_ok : str -> bool) (stamp : str) (std units text : option str) (shape_ok : bool) : res (made * list (str * str)) :=
  bind (gridded_init std_ok unit_ok (mkKw (Some std) (Some units) shape_ok)) (fun m => bind (add_history stamp text []) (fun at_ => Ok (m, at_))).

(** ** Collapsing: the choice of the kernel, _collapse_gridded 630-640, and the kernels, collapse_kernels.py:60-88 *)
Inductive kernel := Iris (name : str) | Multi (name : str) (subs : list str).
Inductive kernel_arg := ANone | AStr (s : str) | AKernel (k : kernel) | ABad.
Definition aggregation_kernels : list (str * kernel) :=
  [(lit "sum", Iris (lit "sum")); (lit "median", Iris (lit "median")); (lit "gmean", Iris (lit "geometric_mean")); (lit "hmean", Iris (lit "harmonic_mean"));
   (lit "peak", Iris (lit "peak")); (lit "RMS", Iris (lit "root mean square")); (lit "mean", Iris (lit "mean")); (lit "min", Iris (lit "minimum"));
   (lit "max", Iris (lit "maximum")); (lit "moments", Multi (lit "moments") [lit "mean"; lit "standard_deviation"; lit "count"])]%string.
Definition choose_kernel (a : kernel_arg) : res kernel :=
  let named s := match dict_get aggregation_kernels s with Some k => Ok k | None => Raises KeyError end in
  match a with
  | ANone => named (lit "moments")
  | AStr s => named (match s with [] => lit "moments" | _ => s end)
  | AKernel k => Ok k
  | ABad => Raises ValueError
  end.
Definition sub_kernels (k : kernel) : list str := match k with Iris n => [n] | Multi _ subs => subs end.
(** update_metadata of StddevKernel, 16-27, and CountKernel, 49-57: the variable's name; other kernels keep it *)
Definition collapsed_name (kernel var : str) : str :=
  if str_eqb kernel (lit "standard_deviation") then var ++ lit "_std_dev"
  else if str_eqb kernel (lit "count") then var ++ lit "_num_points" else var.
(** The names of the results of collapsing a list, GriddedDataList.collapsed 508-521 *)
Definition collapsed_names (k : kernel) (vars : list str) : list str := flat_map (fun v => map (fun n => collapsed_name n v) (sub_kernels k)) vars.

(** _get_default_plot_type, 399-405 *)
Definition default_plot (c : cube) : res str :=
  match k_ndim c with 1 => Ok (lit "line") | 2 => Ok (lit "heatmap") | _ => Raises ValueError end.
