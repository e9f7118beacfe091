(** Arrays of points asked of a kd-tree: KDTree.query (cis/collocation/kdtree.py:652-787, around _query), KDTree.query_ball_point (813-860, around _query_ball_point) and distance_matrix (1349-1394).
    As in KDModel a distance is represented by its p-th power; [None] is an infinite distance.  An array of points is the shape without its last dimension, the length of the last dimension, and the points in row-major order
    (that of np.ndindex); a result is a shape and the elements in that order. *)
From Verif Require Import Base QBase KDModel.
From Coq Require Import List.
Import ListNotations.
Open Scope Q_scope.

Record points := mkPoints { p_shape : list nat; p_width : nat; p_cells : list (list Q) }.
Definition cells_of (shape : list nat) : nat := fold_right Nat.mul 1%nat shape.
Inductive found :=
| Numbers (shape : list nat) (dd : list (option Q)) (ii : list nat)          (* arrays of numbers; of shape () for a pair of numbers *)
| Lists (shape : list nat) (dd : list (list Q)) (ii : list (list nat)).       (* arrays of lists; of shape () for a pair of lists *)
(** the loops over the hits of one point, 746-747 and 763-764 and 784-785: position [at] onwards *)
Fixpoint put_hits (dd : list (option Q)) (ii : list nat) (at_ : nat) (hits : list nb) : list (option Q) * list nat :=
  match hits with [] => (dd, ii) | (d, i) :: hits => put_hits (set_nth at_ (Some d) dd) (set_nth at_ i ii) (S at_) hits end.
Section Query.
Variables (pop : list entry -> option (entry * list entry)) (kd : kdtree) (eps : Q) (p : pnorm) (ub : option Q).
(** _query; the checks of query are made before it, with its [k] *)
Definition search (k : option nat) (x : list Q) : res (list nb) := query pop kd x k eps p ub.
(** 741-754: for c in np.ndindex(retshape) *)
Fixpoint fill_numbers (k : nat) (c : nat) (xs : list (list Q)) (dd : list (option Q)) (ii : list nat) : res (list (option Q) * list nat) :=
  match xs with
  | [] => Ok (dd, ii)
  | x :: xs => bind (search (Some k) x) (fun hits =>
               let '(dd, ii) := if (k =? 1)%nat then match hits with (d, i) :: _ => (set_nth c (Some d) dd, set_nth c i ii) | [] => (set_nth c None dd, set_nth c (length (kd_data kd)) ii) end
                                else put_hits dd ii (c * k) hits in
               fill_numbers k (S c) xs dd ii)
  end.
Fixpoint fill_lists (c : nat) (xs : list (list Q)) (dd : list (list Q)) (ii : list (list nat)) : res (list (list Q) * list (list nat)) :=
  match xs with
  | [] => Ok (dd, ii)
  | x :: xs => bind (search None x) (fun hits => fill_lists (S c) xs (set_nth c (map fst hits) dd) (set_nth c (map snd hits) ii))
  end.
(** 718-787: self.n is the number of points of the tree.  k None is [None]. *)
Definition query_array (x : points) (k : option Z) : res found :=
  if negb (p_width x =? length (kd_maxes kd))%nat then Raises ValueError
  else if match p with PN O => true | _ => false end then Raises ValueError
  else
    let n := length (kd_data kd) in
    match p_shape x with
    | _ :: _ =>
      let size := cells_of (p_shape x) in
      match k with
      | None => bind (fill_lists 0 (p_cells x) (repeat [] size) (repeat [] size)) (fun r => Ok (Lists (p_shape x) (fst r) (snd r)))
      | Some k =>
        if (1 <? k)%Z then
          let k := Z.to_nat k in
          bind (fill_numbers k 0 (p_cells x) (repeat None (size * k)) (repeat n (size * k))) (fun r => Ok (Numbers (p_shape x ++ [k]) (fst r) (snd r)))
        else if (k =? 1)%Z then bind (fill_numbers 1 0 (p_cells x) (repeat None size) (repeat n size)) (fun r => Ok (Numbers (p_shape x) (fst r) (snd r)))
        else Raises ValueError
      end
    | [] =>
      let x := hd [] (p_cells x) in
      match k with
      | None => bind (search None x) (fun hits => Ok (Lists [] [map fst hits] [map snd hits]))
      | Some k =>
        if (k =? 1)%Z then bind (search (Some 1%nat) x) (fun hits => Ok (match hits with (d, i) :: _ => Numbers [] [Some d] [i] | [] => Numbers [] [None] [n] end))
        else if (1 <? k)%Z then
          let k := Z.to_nat k in
          bind (search (Some k) x) (fun hits => let r := put_hits (repeat None k) (repeat n k) 0 hits in Ok (Numbers [k] (fst r) (snd r)))
        else if (k =? 0)%Z then
          (* the search comes first: 608-609 take the furthest of the neighbours found so far off the empty heap when one is to be pushed, an IndexError *)
          bind (search None x) (fun hits => if is_nil hits then Raises ValueError else Raises IndexError)
        else Raises ValueError
      end
    end.
End Query.

(** 850-860 *)
Inductive near := NearOne (l : list nat) | NearAll (shape : list nat) (ls : list (list nat)).
Fixpoint map_points (f : list Q -> res (list nat)) (xs : list (list Q)) (c : nat) (result : list (list nat)) : res (list (list nat)) :=
  match xs with [] => Ok result | x :: xs => bind (f x) (fun l => map_points f xs (S c) (set_nth c l result)) end.
Definition query_ball_array (kd : kdtree) (x : points) (r : Q) (p : pnorm) (eps : Q) : res near :=
  if negb (p_width x =? length (kd_maxes kd))%nat then Raises ValueError
  else match p_shape x with
       | [] => bind (query_ball_point kd (hd [] (p_cells x)) r p eps) (fun l => Ok (NearOne l))
       | _ => bind (map_points (fun x => query_ball_point kd x r p eps) (p_cells x) 0 (repeat [] (cells_of (p_shape x)))) (fun ls => Ok (NearAll (p_shape x) ls))
       end.

(** ** distance_matrix, 1376-1394.  A matrix is its rows; [junk] is the memory of np.empty((m, n)). *)
Record matrix := mkMatrix { m_rows : list (list Q); m_columns : nat }.
Definition by_rows (p : pnorm) (x y : list (list Q)) (result : list (list Q)) : list (list Q) :=
  fold_left (fun result i => set_nth i (map (fun b => minkowski_p p (row x i) b) y) result) (seq 0 (length x)) result.
Definition by_columns (p : pnorm) (x y : list (list Q)) (result : list (list Q)) : list (list Q) :=
  fold_left (fun result j => zipw (fun a line => set_nth j (minkowski_p p a (row y j)) line) x result) (seq 0 (length y)) result.
Definition distance_matrix (x y : matrix) (p : pnorm) (threshold : Z) (junk : list (list Q)) : res (list (list Q)) :=
  let m := length (m_rows x) in let n := length (m_rows y) in
  if negb (m_columns x =? m_columns y)%nat then Raises ValueError
  else if (Z.of_nat (m * n * m_columns x) <=? threshold)%Z then Ok (map (fun a => map (fun b => minkowski_p p a b) (m_rows y)) (m_rows x))
  else if (m <? n)%nat then Ok (by_rows p (m_rows x) (m_rows y) junk)
  else Ok (by_columns p (m_rows x) (m_rows y) junk).
