(** Specification for C92: data frames. *)
From Verif Require Import Base PyStr QBase UngrModel FrModel.
Open Scope list_scope. Open Scope nat_scope.

(** What is seen of a frame: the names of its columns, and its rows (the label in the index, the values in the order of the columns). *)
Definition names (f : frame) : list (option str) := map fst (f_cols f).
Definition frame_row (f : frame) (i : nat) : option (option Q) * list (option Q) := (option_map (fun l => nth i l None) (f_index f), map (fun c : option str * list (option Q) => nth i (snd c) None) (f_cols f)).
Definition table (f : frame) : list (option (option Q) * list (option Q)) := map (frame_row f) (seq 0 (f_rows f)).
(** every column has one value per row *)
Definition rectangular (f : frame) : Prop := Forall (fun c : option str * list (option Q) => length (snd c) = f_rows f) (f_cols f).

(** The rows of the data where no coordinate is missing *)
Definition located_row (d : udata) (i : nat) : bool := forallb (fun c => match nth i (c_points c) None with Some _ => true | None => false end) (u_coords d).
Definition located_rows (d : udata) : list nat := filter (located_row d) (seq 0 (length (u_values d))).
(** The coordinate that labels the rows, if there is one and it is asked for; the others are columns *)
Definition labels (time_index : bool) (c : coord) : bool := time_index && (match c_std c with Some n => if str_eq_dec n (lit "time") then true else false | None => false end).
Definition label_of (time_index : bool) (u : time_unit) (d : udata) (i : nat) : option (option Q) :=
  match find (labels time_index) (u_coords d) with
  | Some c => Some (match nth i (c_points c) None with Some t => Some (match u with UnitSince ref step => (ref + t * step)%Q | _ => t end) | None => None end)
  | None => None
  end.
Definition column_coords (time_index : bool) (d : udata) : list coord := filter (fun c => negb (labels time_index c)) (u_coords d).
Definition data_row (time_index : bool) (u : time_unit) (d : udata) (i : nat) : option (option Q) * list (option Q) :=
  (label_of time_index u d i, map (fun c => nth i (c_points c) None) (column_coords time_index d) ++ [nth i (u_values d) None]).
(** the name of the data column *)
Definition column_name (name : option str) (dname : str) : str := match name with Some n => if str_eq_dec n [] then dname else n | None => dname end.
(** no two coordinates share a standard name, and none has the name of the data column *)
Definition own_names (time_index : bool) (n : str) (d : udata) : Prop :=
  NoDup (map c_std (u_coords d)) /\ forall c, In c (column_coords time_index d) -> c_std c <> Some n.
(** the last of the list with the key *)
Definition last_with (k : option str) (l : list coord) (c : coord) : Prop := exists pre post, l = pre ++ c :: post /\ c_std c = k /\ forall x, In x post -> c_std x <> k.
