(** Specifications for C49: what arithmetic gives, element by element, and what it leaves alone. *)
From Coq Require Import String.
From Verif Require Import Base PyStr QBase LonModel HeapModel HeapSpec MathModel.
From Coq Require Import List.
Import ListNotations.
Open Scope string_scope. Open Scope list_scope. Open Scope nat_scope. Notation length := List.length.

(** ** Element by element *)
(** an array: its shape and its elements, the last axis running fastest; an element is named by one number for each axis *)
Definition volume (shape : list nat) : nat := fold_right Nat.mul 1 shape.
Definition whole (a : list nat * list cell) : Prop := length (snd a) = volume (fst a).
Fixpoint position (shape idx : list nat) : nat := match shape, idx with _ :: s, i :: idx => i * volume s + position s idx | _, _ => 0 end.
Definition inside (shape idx : list nat) : Prop := Forall2 lt idx shape.
Definition element (a : list nat * list cell) (idx : list nat) : option cell := nth_error (snd a) (position (fst a) idx).
(** an array can be combined with data of the shape [target] if its axes are the last axes of the target, each of the same length or of length 1 *)
Definition fits (shape target : list nat) : Prop :=
  length shape <= length target /\ Forall2 (fun m n => m = n \/ m = 1) shape (skipn (length target - length shape) target).
(** the element of the smaller array that stands against the element [idx] of the data: the last axes, and 0 on axes of length 1 *)
Definition against (shape idx : list nat) : list nat :=
  map (fun ni : nat * nat => if fst ni =? 1 then 0 else snd ni) (combine shape (skipn (length idx - length shape) idx)).
(** [r] has the shape of [a], and each element is the operation on the element of [a] and the one of [b] against it *)
Definition combined (op : cell -> cell -> cell) (a b r : list nat * list cell) : Prop :=
  fst r = fst a /\ whole r /\
  forall idx, inside (fst a) idx -> exists x y, element a idx = Some x /\ element b (against (fst b) idx) = Some y /\ element r idx = Some (op x y).
Definition mapped (op : cell -> cell) (a r : list nat * list cell) : Prop :=
  fst r = fst a /\ length (snd r) = length (snd a) /\ forall i x, nth_error (snd a) i = Some x -> nth_error (snd r) i = Some (op x).

(** ** Seeing operands *)
(** ungridded data or a coordinate: values and metadata *)
Definition see_left (h : heap) (l : loc) : option lazy_view :=
  match nth_error h l with Some (OCoord d f md _ at_) | Some (OData d f md _ at_) => see_lazy h d f md at_ | _ => None end.
(** the units, if it has units, and the values of the right operand *)
Definition see_operand (h : heap) (o : operand) : option (option str * (list nat * list cell)) :=
  match o with
  | Number c => Some (None, ([], [c]))
  | Array a => match see_array h a with Some v => Some (None, v) | None => None end
  | Object l => match see_left h l with Some v => Some (Some (v_units (v_md v)), v_data v) | None => None end
  | Cube u a => match see_array h a with Some v => Some (Some u, v) | None => None end
  end.

(** ** What comes out *)
(** metadata with other units and one more line of history *)
Definition noted (u t : str) (m : md_view) : md_view :=
  mkMd (v_name m) (v_std m) (v_long m) (v_shape m) u (v_range m) (match v_history m with [] => t | old => old ++ lit "
" ++ t end) (v_misc m).
(** new data with the values [r], the units [u], a line in the history, else the metadata of the left operand; no attributes; coordinates equal to its *)
Definition new_lazy (r : list nat * list cell) (u t : str) (m : md_view) : lazy_view := mkLazy r ([length (snd r)], snd r) (noted u t m) [].
Definition outcome (r : list nat * list cell) (u t : str) (v : lazy_view * list (lazy_view * str)) : lazy_view * list (lazy_view * str) :=
  (new_lazy r u t (fresh_md r (v_md (fst v))), snd (made_from (fun x => x) v)).
Definition line_of (name : str) : str := lit "Performed " ++ name ++ lit " operation".

(** ** In place *)
(** the array of data or of a coordinate, and the memory its values are in; every element has a place of its own there *)
Definition array_of (h : heap) (l : loc) : option loc := match nth_error h l with Some (OCoord a _ _ _ _) | Some (OData a _ _ _ _) => Some a | _ => None end.
Definition buffer_of (h : heap) (l : loc) : option loc :=
  match array_of h l with Some a => match nth_error h a with Some (OArr _ b _) => Some b | _ => None end | None => None end.
Definition own_places (h : heap) (l : loc) : Prop :=
  exists a s b i cells, array_of h l = Some a /\ nth_error h a = Some (OArr s b i) /\ nth_error h b = Some (OBuf cells) /\ NoDup i /\ Forall (fun j => j < length cells) i.
(** what the operation in place does: the values, units and history of the left operand; nothing else of it; and objects that have not to do with its
    values or metadata look the same *)
Definition in_place_effect (r : list nat * list cell) (u t : str) (d : loc) (h h' : heap) (v : lazy_view) : Prop :=
  (exists w, see_left h' d = Some w /\ v_data w = r /\ v_md w = noted u t (v_md v) /\ v_attrs w = v_attrs v /\ (flats_are_views h -> flat_right w)) /\
  (forall x b md, buffer_of h d = Some b -> md_of h d = Some md -> ~ reach h x b -> ~ reach h x md -> looks_the_same h h' x).

(** ** The operations with the right operand's role fixed: what units come out, or which exception *)
Definition sum_units (left : str) (right : option str) : res str := match right with Some u => if str_eqb left u then Ok left else Raises NotImplementedError | None => Ok left end.
Definition product_units (units : str -> str -> res str) (left : str) (right : option str) : res str := units left (match right with Some u => u | None => lit "1" end).
(** an operation with two operands, by what units it gives *)
Inductive two_operands : (cell -> cell -> cell) -> (str -> option str -> res str) -> (operand -> bool -> loc -> M loc) -> Prop :=
| sum_or_difference op : two_operands op sum_units (add_subtract op)
| product_or_quotient op units : two_operands op (product_units units) (multiply_divide op units).
(** shape and range in the metadata are those of the values *)
Definition up_to_date_lazy (v : lazy_view) : Prop := v_shape (v_md v) = fst (v_data v) /\ v_range (v_md v) = range_of (snd (v_data v)).
Definition up_to_date (v : lazy_view * list (lazy_view * str)) : Prop := up_to_date_lazy (fst v) /\ Forall (fun c => up_to_date_lazy (fst c)) (snd v).
(** the operation with one operand *)
Inductive one_operand : (cell -> cell) -> (str -> res str) -> str -> (bool -> loc -> M loc) -> Prop := one op units name : one_operand op units name (unary op units name).
