(** Collocating gridded data onto a gridded sample: GriddedData.sampled_from (cis/data_io/gridded_data.py:377-397), collocate (cis/collocation/col.py:9-46),
    GriddedCollocator (cis/collocation/col_implementations.py:584-745), GriddedDataList (gridded_data.py:522-532, 576-592). *)
From Coq Require Import String.
From Verif Require Import Base PyStr QBase LonModel DateModel IndexModel UngrModel SubsetModel AggModel GColModel InterpModel GUModel.
From Coq Require Import List.
Import ListNotations.
Open Scope string_scope. Open Scope list_scope. Open Scope nat_scope. Notation length := List.length.

(** The sample: the coordinates of its dimensions; its other coordinates, with whether they are DimCoord objects (iris); its mask, if it has one.
    Simplification: every dimension has a coordinate. *)
Record sample := mkSample { sa_dims : list gdim; sa_aux : list (gdim * bool); sa_mask : option (list nat -> bool) }.
(** cube.coords(): those of the dimensions first (iris contract) *)
Definition sample_coords (s : sample) : list (gdim * bool) := map (fun d => (d, true)) (sa_dims s) ++ sa_aux s.
Definition points_of (d : gdim) : list Q := d_points (gd_dim d).
Definition named (name : str) (d : gdim) : bool := str_eqb (gd_name d) name.
(** Where a value is wanted along one dimension of the data: at a coordinate (interpolating) or at an index (kept). *)
Inductive target := At (x : Q) | Index (i : nat).

Section GG.
(** iris: Cube.interpolate with Linear or Nearest and extrapolation mode 'mask' is a function of the cube and of what is wanted along each dimension; None: masked. *)
Variable scheme : method -> gdata -> list target -> option Q.

(** 630-643: for each dimension of the data, the first coordinate of the sample with that name: (its position in the sample, the dimension) *)
Definition lookup_name (s : sample) (name : str) : option nat := index_where (fun c => named name (fst c)) (sample_coords s).
Definition shared_pairs (s : sample) (dims : list gdim) : list (nat * nat) :=
  flat_map (fun i => match lookup_name s (gd_name (nth i dims no_dim)) with Some j => [(j, i)] | None => [] end) (seq 0 (length dims)).
Definition other_dims (s : sample) (dims : list gdim) : list nat :=
  filter (fun i => match lookup_name s (gd_name (nth i dims no_dim)) with Some _ => false | None => true end) (seq 0 (length dims)).
Definition sample_points (s : sample) (j : nat) : list Q := points_of (fst (nth j (sample_coords s) (no_dim, false))).
Definition product (l : list nat) : nat := fold_left Nat.mul l 1.

(** numpy.reshape (contract): position in C order *)
Definition ravel (shape e : list nat) : nat := fold_left (fun (acc : nat) (se : nat * nat) => acc * fst se + snd se) (combine shape e) 0.
(** 686-710 *)
Definition make_output_mask (mdfms : bool) (s : sample) (shared : nat) (shape : list nat) (repeat_size : nat) : res (option (list nat -> bool)) :=
  if negb mdfms then Ok None
  else if shared <? length (sa_dims s) then Ok None
  else match sa_mask s with
       | None => Ok None
       | Some m =>
         let flat := flat_map (fun e => repeat (m e) repeat_size) (index_iterator (map (fun d => length (points_of d)) (sa_dims s))) in
         if length flat =? product shape then Ok (Some (fun e => nth (ravel shape e) flat false)) else Raises ValueError
       end.
(** Cube.interpolate (iris contract): every name must be that of one coordinate; the dimensions stay in order, with the new points.
    Simplification: the auxiliary coordinates of the data have other names than its dimensions. *)
Definition wanted (pairs : list (str * list Q)) (d : gdim) : option (list Q) := option_map snd (find (fun p => named (fst p) d) pairs).
Definition interpolate_cube (m : method) (pairs : list (str * list Q)) (g : gdata) : res gdata :=
  if forallb (fun p : str * list Q => length (filter (named (fst p)) (g_dims g)) =? 1) pairs then
    Ok (mkG (map (fun d => match wanted pairs d with Some pts => mkGDim (gd_std d) (gd_other d) (InterpModel.mkDim pts (d_circular (gd_dim d))) | None => d end) (g_dims g)) (g_aux g)
            (fun e => scheme m g (zip_with (fun d k => match wanted pairs d with Some pts => At (nth k pts 0%Q) | None => Index k end) (g_dims g) e)))
  else Raises CoordinateNotFoundError.
Fixpoint nodupb (l : list nat) : bool := match l with [] => true | x :: r => negb (existsb (Nat.eqb x) r) && nodupb r end.
(** Cube.transpose (iris, numpy contract): the new dimension p is the old dimension order[p] *)
Definition transpose (order : list nat) (g : gdata) : res gdata :=
  if (length order =? length (g_dims g)) && nodupb order && forallb (fun i => i <? length (g_dims g)) order then
    Ok (mkG (map (fun i => nth i (g_dims g) no_dim) order) (g_aux g) (fun e => g_values g (map (fun i => nth (index_of i order) e 0) (seq 0 (length order)))))
  else Raises ValueError.
(** 729-731: the dictionary from names to dimensions; for equal names the last *)
Definition name_position (dims : list gdim) (name : str) : option nat :=
  option_map (fun k => length dims - 1 - k) (index_where (named name) (rev dims)).
(** utils.py:154-170 with 734-738.  Simplification: another shape is an error (numpy would try to broadcast). *)
Definition masked_result (mask : option (list nat -> bool)) (shape : list nat) (g : gdata) : res gdata :=
  match mask with
  | None => Ok g
  | Some m =>
    if existsb m (index_iterator shape) then
      if list_eq_dec Nat.eq_dec (map (fun d => length (points_of d)) (g_dims g)) shape then Ok (mkG (g_dims g) (g_aux g) (fun e => if m e then None else g_values g e)) else Raises ValueError
    else Ok g
  end.
(** 602-684 for a list of variables (a single one is treated alike); coords and dim_coords of a list are those of its first element.
    The results and the data afterwards.  662-679: the new sample cube needs DimCoord objects, each once. *)
Definition collocate_grid (m : method) (mdfms : bool) (s : sample) (gs : list gdata) : res (list gdata * list gdata) :=
  bind (sample_low (map (fun c => (gd_std (fst c), points_of (fst c))) (sample_coords s))) (fun low =>
  bind (match low with Some low => map_res (rotate low) gs | None => Ok gs end) (fun gs =>
  match gs with
  | [] => Raises IndexError
  | g0 :: _ =>
    let dims := g_dims g0 in
    let sorted := sort_by (shared_pairs s dims) in
    let others := other_dims s dims in
    let name i := gd_name (nth i dims no_dim) in
    let shape := map (fun ji => length (sample_points s (fst ji))) sorted ++ map (fun i => length (points_of (nth i dims no_dim))) others in
    let repeat_size := product (map (fun i => length (points_of (nth i dims no_dim))) others) in
    bind (make_output_mask mdfms s (length sorted) shape repeat_size) (fun mask =>
    if negb (forallb (fun ji : nat * nat => snd (nth (fst ji) (sample_coords s) (no_dim, false))) sorted) then Raises ValueError else
    if negb (nodupb (map fst sorted)) then Raises ValueError else
    let pairs := map (fun ji => (name (snd ji), sample_points s (fst ji))) sorted in
    bind (map_res (interpolate_cube m pairs) gs) (fun outs =>
    bind (match outs with
          | [] => Ok []
          | o :: _ => map_res (fun n => match name_position (g_dims o) n with Some k => Ok k | None => Raises KeyError end) (map (fun ji => name (snd ji)) sorted ++ map name others)
          end) (fun order =>
    bind (map_res (transpose order) outs) (fun outs =>
    bind (map_res (masked_result mask shape) outs) (fun outs => Ok (outs, gs))))))
  end)).
(** sampled_from with gridded data, 379-391 *)
Definition sampled_on_grid (how : str) (kernel_given : bool) (mdfms : bool) (s : sample) (gs : list gdata) : res (list gdata * list gdata) :=
  if kernel_given then Raises ValueError
  else if str_eqb how [] || str_eqb how (lit "lin") then reported (collocate_grid Lin mdfms s gs)
  else if str_eqb how (lit "nn") then reported (collocate_grid Nn mdfms s gs)
  else Raises ValueError.
End GG.
