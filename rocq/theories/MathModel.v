(** Arithmetic on ungridded data and coordinates in memory: cis/maths.py, and the operators of LazyData, cis/data_io/ungridded_data.py:316-325. *)
From Coq Require Import String.
From Verif Require Import Base PyStr QBase LonModel HeapModel.
From Coq Require Import List.
Import ListNotations.
Open Scope string_scope. Open Scope list_scope. Open Scope nat_scope. Notation length := List.length.

(** ** numpy broadcasting *)
Fixpoint size (shape : list nat) : nat := match shape with [] => 1 | n :: s => n * size s end.
(** the common shape of two arrays, the last axes first; None: they cannot be broadcast *)
Fixpoint broadcast_rev (a b : list nat) : option (list nat) :=
  match a, b with
  | [], b => Some b
  | a, [] => Some a
  | x :: a, y :: b =>
    match broadcast_rev a b with
    | None => None
    | Some s => if x =? y then Some (x :: s) else if x =? 1 then Some (y :: s) else if y =? 1 then Some (x :: s) else None
    end
  end.
Definition broadcast_shape (a b : list nat) : option (list nat) := option_map (@rev nat) (broadcast_rev (rev a) (rev b)).
(** the elements of an array made to a shape its own can be broadcast to: axes of length 1 repeated, and new axes at the front *)
Fixpoint chunks {A} (n k : nat) (l : list A) : list (list A) := match n with O => [] | S n => firstn k l :: chunks n k (skipn k l) end.
Fixpoint stretch_axes {A} (target shape : list nat) (l : list A) : list A :=
  match target, shape with
  | n :: target, m :: shape =>
    if m =? n then flat_map (stretch_axes target shape) (chunks m (size shape) l)
    else List.concat (repeat (stretch_axes target shape l) n)
  | _, _ => l
  end.
Definition stretch {A} (target shape : list nat) (l : list A) : list A := stretch_axes target (repeat 1 (length target - length shape) ++ shape) l.

(** ** Operands *)
(** the second operand: a number, an array, ungridded data or a coordinate, gridded data (a Cube: units and data) *)
Inductive operand := Number (c : cell) | Array (a : loc) | Object (l : loc) | Cube (units : str) (a : loc).
(** getattr(other, 'units', ...): only data has units *)
Definition operand_units (o : operand) : M (option str) :=
  match o with
  | Object l => x <~ get_lazy l ;; m <~ get_meta (h_md x) ;; ret (Some (m_units m))
  | Cube u _ => ret (Some u)
  | _ => ret None
  end.
(** 339-340, other.data of LazyData or Cube *)
Definition operand_array (o : operand) : M (list nat * list cell) :=
  match o with
  | Number c => ret ([], [c])
  | Array a => get_array a
  | Object l => x <~ get_lazy l ;; get_array (h_data x)
  | Cube _ a => get_array a
  end.
(** _assert_is_ungridded_data, 36-40 *)
Definition left_operand (d : loc) : M handle := o <~ get d ;; match o with OCoord _ _ _ _ _ | OData _ _ _ _ _ => get_lazy d | _ => fail TypeError end.

(** ** _math_op_common, 363-376 *)
(** add_history, ungridded_data.py:345-355, without the time stamp *)
Definition with_more_history (t : str) (m : meta) : meta := with_history m (match m_history m with [] => t | old => old ++ lit "
" ++ t end).
(** numpy writes into an array: the elements are computed before (numpy sees to operands that overlap) *)
Definition write_array (a : loc) (new : list cell) : M unit :=
  o <~ get a ;; match o with
  | OArr _ b index => o <~ get b ;; match o with
      | OBuf cells => update b (OBuf (fold_left (fun cells ic => set_nth (fst ic) (snd ic) cells) (combine index new) cells))
      | _ => fail AttributeError end
  | _ => fail AttributeError end.
(** Coord.copy(data), Coord.py:115-124, and UngriddedData.copy(data) *)
Definition copy_with (a : loc) (d : loc) : M loc :=
  o <~ get d ;; match o with
  | OCoord _ _ md ax _ => md' <~ deepcopy_meta md ;; new_coord a md' ax
  | _ => data_copy (Some a) d
  end.
(** [f]: the function of the shape and elements, an exception if numpy refuses.  In place, what f gives must have the shape of the array (numpy: ValueError). *)
Definition shape_eqb (a b : list nat) : bool := if list_eq_dec Nat.eq_dec a b then true else false.
Definition math_op (f : list nat * list cell -> res (list nat * list cell)) (name new_units : str) (in_place : bool) (d : loc) : M loc :=
  x <~ left_operand d ;; sc <~ get_array (h_data x) ;;
  match f sc with
  | Raises e => fail e
  | Ok r =>
    c <~ (if in_place then (if shape_eqb (fst r) (fst sc) then write_array (h_data x) (snd r) ;;; ret d else fail ValueError)
          else a <~ new_array (fst r) (snd r) ;; copy_with a d) ;;
    change_meta (fun m => with_units m new_units) c ;;;
    change_meta (with_more_history (lit "Performed " ++ name ++ lit " operation")) c ;;; ret c
  end.

(** ** Operations with one operand, abs 14-34, exponentiate, exp, log, log2, log10, 189-283: the function of an element and of the units are arbitrary *)
Definition unary (op : cell -> cell) (units : str -> res str) (name : str) (in_place : bool) (d : loc) : M loc :=
  x <~ left_operand d ;; m <~ get_meta (h_md x) ;;
  match units (m_units m) with
  | Raises e => fail e
  | Ok u => math_op (fun sc => Ok (fst sc, map op (snd sc))) name u in_place d
  end.

(** ** Operations with two operands *)
(** _assert_compatible, 286-313: the shape in the metadata of the left operand must be the common shape *)
Definition elementwise (op : cell -> cell -> cell) (md_shape : list nat) (other : list nat * list cell) (sc : list nat * list cell) : res (list nat * list cell) :=
  match broadcast_shape (fst sc) (fst other) with
  | None => Raises ValueError
  | Some s => if shape_eqb md_shape s
      then Ok (s, map (fun ab : cell * cell => op (fst ab) (snd ab)) (combine (stretch s (fst sc) (snd sc)) (stretch s (fst other) (snd other))))
      else Raises ValueError
  end.
(** _binary_op_common, 316-360; the name recorded is that of the inner function, "unary_func", whatever the operation *)
Definition binary (op : cell -> cell -> cell) (new_units : str) (other : operand) (in_place : bool) (d : loc) : M loc :=
  x <~ left_operand d ;; m <~ get_meta (h_md x) ;; oa <~ operand_array other ;;
  math_op (elementwise op (m_shape m) oa) (lit "unary_func") new_units in_place d.
(** add and subtract, 54-139, _assert_matching_units, 43-52 *)
Definition add_subtract (op : cell -> cell -> cell) (other : operand) (in_place : bool) (d : loc) : M loc :=
  x <~ left_operand d ;; m <~ get_meta (h_md x) ;; u <~ operand_units other ;;
  if match u with Some u => str_eqb (m_units m) u | None => true end then binary op (m_units m) other in_place d else fail NotImplementedError.
(** multiply and divide, 142-187: the units of the product, cf_units' affair, from those of the operands, '1' if there are none *)
Definition multiply_divide (op : cell -> cell -> cell) (units : str -> str -> res str) (other : operand) (in_place : bool) (d : loc) : M loc :=
  x <~ left_operand d ;; m <~ get_meta (h_md x) ;; u <~ operand_units other ;;
  match units (m_units m) (match u with Some u => u | None => lit "1" end) with
  | Raises e => fail e
  | Ok u => binary op u other in_place d
  end.
