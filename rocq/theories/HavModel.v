(** Great-circle distances and the haversine kd-tree.
    Positions are exact numbers: reals for the distance itself; in the tree the coordinates (degrees) are rationals and
    the distances reals. *)
From Verif Require Import Base QBase KDModel.
From Coq Require Import Reals.
Open Scope R_scope.

Definition RADIUS : R := 6378.
Definition rad (x : R) : R := x * PI / 180.
(** cis/utils.py:308-319 and cis/collocation/kdtree.py:95-116 (the same formula) *)
Definition haversine (lat1 lon1 lat2 lon2 : R) : R :=
  2 * asin (sqrt (sin ((rad lat2 - rad lat1) / 2) ^ 2 + cos (rad lat1) * cos (rad lat2) * sin ((rad lon2 - rad lon1) / 2) ^ 2)) * RADIUS.

(** a sample or data position: latitude, longitude *)
Definition gpos := (R * R)%type.
Definition hdist (p q : gpos) : R := haversine (fst p) (snd p) (fst q) (snd q).
Definition Rgtb (a b : R) : bool := if Rgt_dec a b then true else false.
Definition Rltb (a b : R) : bool := if Rlt_dec a b then true else false.
Definition Rleb (a b : R) : bool := if Rle_dec a b then true else false.

(** nn_horizontal.get_value, cis/collocation/col_implementations.py:459-475: data points as (row of the data frame, value).
    The distance is kdtree.haversine(point, row) (kdtree.py:94-116), which takes the *first two columns* of each row. *)
Definition first_columns (row : list R) : gpos := (nth 0 row 0, nth 1 row 0).
Definition nn_horizontal {V} (point : list R) (data : list (list R * V)) : res V :=
  let dist (d : list R * V) := hdist (first_columns point) (first_columns (fst d)) in
  match data with
  | [] => Raises ValueError
  | d0 :: rest => Ok (snd (fold_left (fun nearest d => if Rgtb (dist nearest) (dist d) then d else nearest) rest d0))
  end.

(** ** HaversineDistanceKDTree, kdtree.py:1137-1175: built like a KDTree over (latitude, longitude); no mask here *)
Definition r2 (l : list Q) : gpos := (Q2R (nth 0 l 0%Q), Q2R (nth 1 l 0%Q)).

(** kdtree.py:1177-1259, _query with k = 1, p = 2, eps = 0 and no bound.  A queue entry: min_distance, side_distances, node. *)
Record hentry := mkHE { he_min : R; he_side : list R; he_node : node }.
Definition hpop_contract (pop : list hentry -> option (hentry * list hentry)) : Prop :=
  pop [] = None /\ forall q, q <> [] -> exists e q', pop q = Some (e, q') /\ Permutation q (e :: q') /\ Forall (fun e' => he_min e <= he_min e') q'.
(** [min_distance > distance_upper_bound], None is infinity *)
Definition above (x : R) (ub : option R) : bool := match ub with None => false | Some u => Rgtb x u end.
Definition below (x : R) (ub : option R) : bool := match ub with None => true | Some u => Rltb x u end.
Definition best_bound (best : option (R * nat)) : option R := option_map fst best.
(** the leaf loop: with k = 1 the heap holds at most the best neighbour so far *)
Definition hleaf_step (data : list (list Q)) (x : list Q) (best : option (R * nat)) (i : nat) : option (R * nat) :=
  let d := hdist (r2 (row data i)) (r2 x) in if below d (best_bound best) then Some (d, i) else best.
Fixpoint hquery_loop (pop : list hentry -> option (hentry * list hentry)) (fuel : nat) (data : list (list Q)) (x : list Q)
    (q : list hentry) (best : option (R * nat)) : res (option (R * nat)) :=
  match fuel with
  | O => Raises OutOfFuel
  | S fuel =>
    match pop q with
    | None => Ok best
    | Some (e, q) =>
      match he_node e with
      | Leaf idx => hquery_loop pop fuel data x q (fold_left (hleaf_step data x) idx best)
      | Inner d split less greater =>
        if above (he_min e) (best_bound best) then Ok best
        else
          let '(near, far) := if Qltb (nth d x 0%Q) split then (less, greater) else (greater, less) in
          let q := mkHE (he_min e) (he_side e) near :: q in
          let sd := Q2R (split - nth d x 0%Q) ^ 2 in
          let md := he_min e - nth d (he_side e) 0 + sd in
          hquery_loop pop fuel data x (if above md (best_bound best) then q else mkHE md (set_nth d sd (he_side e)) far :: q) best
      end
    end
  end.
(** 1179-1182: the metric weights the longitude by the cosine of the longitude *)
Definition hside (kd : kdtree) (x : list Q) : list R :=
  let gap d := Rmax 0 (Rmax (Q2R (nth d x 0%Q) - Q2R (nth d (kd_maxes kd) 0%Q)) (Q2R (nth d (kd_mins kd) 0%Q) - Q2R (nth d x 0%Q))) in
  [gap 0%nat ^ 2; (gap 1%nat * cos (Q2R (nth 1 x 0%Q) * PI / 180)) ^ 2].
(** query(x) for one position (haversinedistancekdtreeindex.py:44-51): the index of the neighbour; without one, the number of points *)
Definition hquery (pop : list hentry -> option (hentry * list hentry)) (kd : kdtree) (x : list Q) : res nat :=
  let side := hside kd x in
  bind (hquery_loop pop (S (nodes (kd_tree kd))) (kd_data kd) x [mkHE (fold_right Rplus 0 side) side (kd_tree kd)] None)
    (fun best => Ok (match best with Some (_, i) => i | None => length (kd_data kd) end)).

(** ** query_ball_tree, kdtree.py:1261-1322, with eps = 0 *)
Definition hmax0 (a b : R) : R := Rmax 0 (Rmax a b).
Definition rmin (r : rect) (d : nat) : R := Q2R (fst (nth d r (0, 0)%Q)).
Definition rmax (r : rect) (d : nat) : R := Q2R (snd (nth d r (0, 0)%Q)).
(** 398-408 *)
Definition hmin_distance_rectangle (r o : rect) : R :=
  haversine 0 0 (hmax0 (rmin r 0 - rmax o 0) (rmin o 0 - rmax r 0)) (hmax0 (rmin r 1 - rmax o 1) (rmin o 1 - rmax r 1)).
(** 410-420 *)
Definition hmax_distance_rectangle (r o : rect) : R :=
  haversine 0 0 (Rmax (rmax r 0 - rmin o 0) (rmax o 0 - rmin r 0)) (Rmax (rmax r 1 - rmin o 1) (rmax o 1 - rmin r 1)).
(** 1281-1318: the traversal, over any three tests (bound exceeded, bulk inclusion, distance within r), collecting (i, j) *)
Section Traverse.
Variables (prune bulk : rect -> rect -> bool) (near : nat -> nat -> bool).
Fixpoint htraverse (t1 : node) : rect -> node -> rect -> list (nat * nat) :=
  fun r1 t2 r2 =>
  (fix go (t2 : node) : rect -> list (nat * nat) := fun r2 =>
  if prune r1 r2 then []
  else if bulk r1 r2 then pairs_nc t1 t2
  else match t1 with
       | Leaf idx1 =>
         match t2 with
         | Leaf idx2 => flat_map (fun i => map (fun j => (i, j)) (filter (near i) idx2)) idx1
         | Inner d s l g => let '(rl, rg) := rect_split r2 d s in go l rl ++ go g rg
         end
       | Inner d s l1 g1 =>
         let '(rl1, rg1) := rect_split r1 d s in
         match t2 with
         | Leaf _ => htraverse l1 rl1 t2 r2 ++ htraverse g1 rg1 t2 r2
         | Inner d s l2 g2 =>
           let '(rl2, rg2) := rect_split r2 d s in
           htraverse l1 rl1 l2 rl2 ++ htraverse l1 rl1 g2 rg2 ++ htraverse g1 rg1 l2 rl2 ++ htraverse g1 rg1 g2 rg2
         end
       end) t2 r2.
End Traverse.
Definition hquery_ball_tree (k o : kdtree) (r : R) : list (list nat) :=
  let ps := htraverse (fun r1 r2 => Rgtb (hmin_distance_rectangle r1 r2) r) (fun r1 r2 => Rltb (hmax_distance_rectangle r1 r2) r)
              (fun i j => Rleb (hdist (r2 (row (kd_data o) j)) (r2 (row (kd_data k) i))) r)
              (kd_tree k) (mk_rect (kd_maxes k) (kd_mins k)) (kd_tree o) (mk_rect (kd_maxes o) (kd_mins o)) in
  map (fun i => map snd (filter (fun ij : nat * nat => (fst ij =? i)%nat) ps)) (seq 0 (length (kd_data k))).
(** haversinedistancekdtreeindex.py:9-20, 63-72: both trees with the default leaf size 10 *)
Definition find_points_within_distance_sample (data sample : list (list Q)) (distance : R) : res (list (list nat)) :=
  bind (KDTree data 10) (fun index => bind (KDTree sample 10) (fun s => Ok (hquery_ball_tree s index distance))).
Definition find_nearest_point (pop : list hentry -> option (hentry * list hentry)) (data sample : list (list Q)) : res (list nat) :=
  bind (KDTree data 10) (fun index =>
    (fix go l := match l with [] => Ok [] | x :: l => bind (hquery pop index x) (fun i => bind (go l) (fun r => Ok (i :: r))) end) sample).
