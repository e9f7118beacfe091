(** How the data of a gridded data set and its two axes become the arrays that are drawn: cis/plotting/genericplot.py:186-271. *)
From Coq Require Import QArith Qabs.
From Verif Require Import Base QBase.

Section Mesh.
(** a value of the data, perhaps missing *)
Context {V : Type}.
(** a two-dimensional array is its rows *)
Definition matrix (A : Type) := list (list A).
Definition ncols {A} (m : matrix A) : nat := match m with [] => 0 | r :: _ => List.length r end.
(** [a.T] *)
Fixpoint glue {A} (r : list A) (m : matrix A) : matrix A := match r, m with x :: r, l :: m => (x :: l) :: glue r m | _, _ => [] end.
Fixpoint transposed {A} (c : nat) (m : matrix A) : matrix A := match m with [] => repeat [] c | r :: m => glue r (transposed c m) end.
Definition transpose {A} (m : matrix A) : matrix A := transposed (ncols m) m.
(** the points or bounds of an axis: of one or two dimensions *)
Inductive axis := A1 (l : list Q) | A2 (m : matrix Q).
(** [x.T] of a one-dimensional array is itself *)
Definition axis_t (a : axis) : axis := match a with A1 l => A1 l | A2 m => A2 (transpose m) end.
(** [len(x)] *)
Definition axis_len (a : axis) : nat := match a with A1 l => List.length l | A2 m => List.length m end.
Definition shape_is (r c : nat) (a : axis) : bool := match a with A1 _ => false | A2 m => (List.length m =? r)%nat && (ncols m =? c)%nat end.
Definition flat (a : axis) : list Q := match a with A1 l => l | A2 m => concat m end.
(** numpy.meshgrid(x, y): both of shape len(y) x len(x); it flattens its arguments *)
Definition meshgrid (x y : list Q) : matrix Q * matrix Q := (map (fun _ => x) y, map (fun b => repeat b (List.length x)) y).

(** numpy.allclose's default tolerances *)
Definition isclose (a b : Q) : bool := Qleb (Qabs (a - b)) ((1 # 100000000) + (1 # 100000) * Qabs b).
Fixpoint diffs (l : list Q) : list Q := match l with a :: ((b :: _) as l) => (b - a)%Q :: diffs l | _ => [] end.
(** cartopy.util.add_cyclic_point(data, coord): ValueError if the coordinate is not one-dimensional or not equally spaced; IndexError if it has one point *)
Definition add_cyclic_point (data : matrix V) (c : nat) (a : axis) : res (matrix V * list Q) :=
  match a with
  | A2 _ => Raises ValueError
  | A1 l =>
    if negb (List.length l =? c)%nat then Raises ValueError
    else match diffs l with
         | [] => Raises IndexError
         | d :: ds => if forallb (fun e => isclose e d) (d :: ds) then Ok (map (fun r => r ++ firstn 1 r) data, l ++ [last l 0 + d]%Q) else Raises ValueError
         end
  end.

(** 211-271.  [tr]: iris's _get_plot_defn(cube, POINT_MODE, ndims).transpose, which depends on the axes iris guesses for the dimension coordinates; [aux]: whether cube[0] has auxiliary coordinates;
    [r], [c]: the shape of the data.  Only data with two dimensions is drawn this way. *)
Definition cube_manipulation (tr aux : bool) (r c : nat) (data : matrix V) (x y : axis) : res (matrix V * axis * axis) :=
  let '(r, c, data, x, y) := if tr then (c, r, transposed c data, axis_t x, axis_t y) else (r, c, data, x, y) in
  if aux && (shape_is r c x || shape_is r c y) then
    (* 244-254 *)
    if shape_is r c y then
      match x with
      | A1 l => if (List.length l =? r)%nat then Ok (data, A2 (repeat l c), y)
                else if (List.length l =? c)%nat then Ok (data, A2 (repeat l r), y)
                else Ok (data, x, y)
      | A2 _ => Ok (data, x, y)
      end
    else
      match y with
      | A1 l => if (List.length l =? r)%nat then Ok (data, x, A2 (repeat l c))
                else if (List.length l =? c)%nat then Ok (data, x, A2 (repeat l r))
                else Ok (data, x, y)
      | A2 _ => Ok (data, x, y)
      end
  else
    (* 256-270: a ValueError of add_cyclic_point is only logged *)
    if (axis_len x =? c)%nat then
      match add_cyclic_point data c x with
      | Ok (data, x) => let '(mx, my) := meshgrid x (flat y) in Ok (data, A2 mx, A2 my)
      | Raises ValueError => let '(mx, my) := meshgrid (flat x) (flat y) in Ok (data, A2 mx, A2 my)
      | Raises e => Raises e
      end
    else if (axis_len y =? c)%nat then
      match add_cyclic_point data c y with
      | Ok (data, y) => let '(my, mx) := meshgrid y (flat x) in Ok (data, A2 mx, A2 my)
      | Raises ValueError => let '(my, mx) := meshgrid (flat y) (flat x) in Ok (data, A2 mx, A2 my)
      | Raises e => Raises e
      end
    else Ok (data, x, y).

(** a coordinate: the points, and contiguous_bounds() (iris; guessed if there are none) *)
Record pcoord := mkCoord { pc_points : axis; pc_bounds : res axis }.
Inductive pmode := PointMode | BoundMode.
(** 186-200, for a cube *)
Definition unpack_data_items (mode : pmode) (tr aux : bool) (r c : nat) (data : matrix V) (x y : pcoord) : res (matrix V * axis * axis) :=
  match mode with
  | PointMode => cube_manipulation tr aux r c data (pc_points x) (pc_points y)
  | BoundMode => bind (pc_bounds x) (fun bx => bind (pc_bounds y) (fun by_ => cube_manipulation tr aux r c data bx by_))
  end.
End Mesh.
