(** Masked points of the haversine kd-tree: HaversineDistanceKDTree.__init__ (cis/collocation/kdtree.py:1160-1175) and create_index (cis/collocation/haversinedistancekdtreeindex.py:7-20).
    The queries of a tree are those of KDModel, HavModel and BallModel: they look at the data only at the numbers kept in the tree. *)
From Verif Require Import Base QBase KDModel HavModel BallModel.
From Coq Require Import List.
Import ListNotations.

(** 1171-1174: np.ma.array(np.arange(n), mask=mask).compressed().  A mask of one element is spread over all (np.ma.array resizes it); another length that is not n is a MaskError
    (an empty mask fails one step earlier; the kind of that error is a simplification). *)
Definition kept_numbers (n : nat) (mask : option (list bool)) : res (list nat) :=
  match mask with
  | None => Ok (seq 0 n)
  | Some m =>
    if (length m =? n)%nat then Ok (filter (fun i => negb (nth i m false)) (seq 0 n))
    else match m with [b] => Ok (if b then [] else seq 0 n) | _ => Raises MaskError end
  end.
(** 1168-1169: np.amax and np.amin of a masked array along the rows pass over the masked rows.  When all are masked they are masked themselves: here [], of which nothing is read, since the tree is one leaf without points. *)
Definition column_max (rows : list (list Q)) : list Q := match rows with [] => [] | x :: r => fold_left (zipw Qmax) r x end.
Definition column_min (rows : list (list Q)) : list Q := match rows with [] => [] | x :: r => fold_left (zipw Qmin) r x end.
(** 1160-1175: self.n and self.data are those of all the points *)
Definition HaversineTree (data : list (list Q)) (leafsize : Z) (mask : option (list bool)) : res kdtree :=
  if (leafsize <? 1)%Z then Raises ValueError
  else match data with
  | [] => Raises ValueError   (* np.amax of an array without rows *)
  | _ => bind (kept_numbers (length data) mask) (fun keep =>
         let rows := map (row data) keep in
         bind (build (S (length keep)) (Z.to_nat leafsize) data keep (column_max rows) (column_min rows)) (fun t =>
         Ok (mkKD data (column_max rows) (column_min rows) t)))
  end.
(** create_index, haversinedistancekdtreeindex.py:7-20, with the leaf size of its callers.  What has an attribute 'data' gives its mask, np.ma.getmask(...).ravel(), which is [False] for an array that is not masked;
    a data frame has none (a simplification: one with a column of the name "data" has the attribute, a column that is not masked). *)
Inductive values := NoValues | Plain | Masked (m : list bool).
Definition create_index (points : list (list Q)) (v : values) : res kdtree :=
  HaversineTree points 10 (match v with NoValues => None | Plain => Some [false] | Masked m => Some m end).
