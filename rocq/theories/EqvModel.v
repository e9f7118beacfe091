(** Equality of data and of coordinates: LazyData.__eq__, __ne__ and __hash__, cis/data_io/ungridded_data.py:296-319, and Coord.__eq__, cis/data_io/Coord.py:57-58. *)
From Coq Require Import QArith Qabs.
From Verif Require Import Base PyStr QBase MtModel.
From Coq Require Import List. Import ListNotations.
Open Scope list_scope. Open Scope nat_scope.

(** A cell of a numpy masked array: masked, nan or a number.  Simplifications: exact numbers, no infinities; the data are loaded and of one dimension. *)
Inductive cell := Masked | NaN | Number (x : Q).
(** numpy.allclose's default tolerances *)
Definition isclose (a b : Q) : bool := Qleb (Qabs (a - b)) ((1 # 100000000) + (1 # 100000) * Qabs b).
(** numpy.isclose of two cells; None: masked *)
Definition cell_close (a b : cell) : option bool := match a, b with Number a, Number b => Some (isclose a b) | Masked, _ | _, Masked => None | _, _ => Some false end.
(** numpy's broadcasting of two arrays of one dimension *)
Definition broadcast (a b : list cell) : res (list (cell * cell)) :=
  if length a =? length b then Ok (combine a b) else
  match a, b with [x], _ => Ok (map (fun y => (x, y)) b) | _, [y] => Ok (map (fun x => (x, y)) a) | _, _ => Raises ValueError end.

Section Equality.
(** cf_units' reading of texts *)
Variable U : str -> option unit.
(** bool(numpy.all(...)) when there are cells and all of them are masked; it depends on the version of numpy *)
Variable all_masked : bool.
(** numpy.allclose(self.data, other.data): masked cells do not count *)
Definition allclose (a b : list cell) : res bool :=
  bind (broadcast a b) (fun ps => let l := map (fun p : cell * cell => cell_close (fst p) (snd p)) ps in
  Ok (if negb (length l =? 0) && forallb (fun o : option bool => match o with None => true | _ => false end) l then all_masked
      else forallb (fun o : option bool => match o with Some false => false | _ => true end) l)).
(** Data (UngriddedData or LazyData), a coordinate, and anything else (without an __eq__ of its own); every object has its identity *)
Inductive object := Data (i : nat) (m : meta) (d : list cell) | Coordinate (i : nat) (m : meta) (d : list cell) | Other (i : nat).
Definition identity (a : object) : nat := match a with Data i _ _ | Coordinate i _ _ | Other i => i end.
(** ungridded_data.py:296-308, of two objects of the class *)
Definition lazy_eq (m : meta) (d : list cell) (m' : meta) (d' : list cell) : res bool := bind (meta_eq U m m') (fun ok => if ok then allclose d d' else Ok false).
(** Coord.py:57-58: [other.metadata.standard_name == self.metadata.standard_name and self.metadata.standard_name != ''] *)
Definition coord_eq (m m' : meta) : bool := std_eq (m_std m') (m_std m) && negb (std_eq (m_std m) (Some [])).
(** a == b: the __eq__ of a; if that is NotImplemented the one of b, and if both are, the same object *)
Definition equal (a b : object) : res bool :=
  match a, b with
  | Data _ m d, Data _ m' d' | Data _ m d, Coordinate _ m' d' => lazy_eq m d m' d'
  | Coordinate _ m _, Data _ m' _ | Coordinate _ m _, Coordinate _ m' _ => Ok (coord_eq m m')
  | Coordinate _ _ _, Other _ | Other _, Coordinate _ _ _ => Raises AttributeError
  | Data _ _ _, Other _ | Other _, Data _ _ _ => Ok false
  | Other i, Other j => Ok (i =? j)
  end.
(** a != b, 311-315 *)
Definition differs (a b : object) : res bool := bind (equal a b) (fun r => Ok (negb r)).
(** 318-319; a class with an __eq__ and no __hash__ of its own has none: Coord *)
Definition hash (a : object) : res nat := match a with Coordinate _ _ _ => Raises TypeError | _ => Ok (identity a) end.
(** a in list: the same object or an equal one, in the order of the list (Python 3.9 on: the element of the list is on the left) *)
Fixpoint is_in_list (a : object) (l : list object) : res bool :=
  match l with [] => Ok false | b :: l => if identity a =? identity b then Ok true else bind (equal b a) (fun r => if r then Ok true else is_in_list a l) end.
End Equality.
