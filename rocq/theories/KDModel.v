(** The kd-tree of cis/collocation/kdtree.py (class KDTree and Rectangle, Minkowski metrics).
    Simplifications common to the whole file:
    - coordinates and radii are exact rationals, no NaN;
    - the order [p] of the norm is a natural number or infinity (the code also takes fractional p);
    - a distance is represented by its p-th power (what [minkowski_distance_p] returns): comparisons of the root with a
      radius are carried out on powers ([root_le], [root_lt]), which is the same for exact roots. *)
From Verif Require Import Base QBase.
From Coq Require Export Qabs.
Open Scope Q_scope.

Definition zipw {A B C} (f : A -> B -> C) (a : list A) (b : list B) : list C := map (fun p : A * B => f (fst p) (snd p)) (combine a b).

(** ** Norms, kdtree.py:25-77 *)
Inductive pnorm := PN (p : nat) | PInf.
Fixpoint qpow (x : Q) (n : nat) : Q := match n with O => 1 | S n => x * qpow x n end.
Definition pw (p : pnorm) (x : Q) : Q := match p with PN n => qpow x n | PInf => x end.
Definition acc (p : pnorm) (v : list Q) : Q :=
  match p with
  | PN n => fold_right Qplus 0 (map (fun x => qpow x n) v)
  | PInf => fold_right Qmax 0 v   (* np.amax of non-negative numbers *)
  end.
(** 25-53: minkowski_distance_p *)
Definition minkowski_p (p : pnorm) (x y : list Q) : Q := acc p (zipw (fun a b => Qabs (b - a)) x y).
(** the same with x = 0 broadcast *)
Definition minkowski_p0 (p : pnorm) (v : list Q) : Q := acc p (map Qabs v).
(** 56-77: minkowski_distance(...) <= r, resp. < r *)
Definition root_le (p : pnorm) (s r : Q) : bool := Qleb 0 r && Qleb s (pw p r).
Definition root_lt (p : pnorm) (s r : Q) : bool := Qltb 0 r && Qltb s (pw p r).

(** ** Rectangles, 180-277: one (min, max) pair per dimension *)
Definition rect := list (Q * Q).
(** 186-190: Rectangle(a, b) *)
Definition mk_rect (a b : list Q) : rect := zipw (fun a b => (Qmin a b, Qmax a b)) a b.
Fixpoint set_nth {A} (d : nat) (v : A) (l : list A) : list A :=
  match l, d with [], _ => [] | _ :: l, O => v :: l | x :: l, S d => x :: set_nth d v l end.
(** 199-219 *)
Definition rect_split (r : rect) (d : nat) (split : Q) : rect * rect :=
  (mk_rect (map fst r) (set_nth d split (map snd r)), mk_rect (set_nth d split (map fst r)) (map snd r)).
(** 226-240 *)
Definition min_distance_point (p : pnorm) (r : rect) (x : list Q) : Q :=
  minkowski_p0 p (zipw (fun (b : Q * Q) x => Qmax 0 (Qmax (fst b - x) (x - snd b))) r x).
(** 242-252 *)
Definition max_distance_point (p : pnorm) (r : rect) (x : list Q) : Q :=
  minkowski_p0 p (zipw (fun (b : Q * Q) x => Qmax (snd b - x) (x - fst b)) r x).
(** 254-264 *)
Definition min_distance_rectangle (p : pnorm) (r o : rect) : Q :=
  minkowski_p0 p (zipw (fun b c : Q * Q => Qmax 0 (Qmax (fst b - snd c) (fst c - snd b))) r o).
(** 266-276 *)
Definition max_distance_rectangle (p : pnorm) (r o : rect) : Q :=
  minkowski_p0 p (zipw (fun b c : Q * Q => Qmax (snd b - fst c) (snd c - fst b)) r o).

(** ** The tree, 492-509 *)
Inductive node := Leaf (idx : list nat) | Inner (split_dim : nat) (split : Q) (less greater : node).
(** 501-509 *)
Fixpoint children (t : node) : nat := match t with Leaf idx => length idx | Inner _ _ l g => children l + children g end.

Definition row (data : list (list Q)) (i : nat) : list Q := nth i data [].
Definition at_ (data : list (list Q)) (d i : nat) : Q := nth d (row data i) 0.
(** np.argmax: the first position of the largest element *)
Fixpoint argmax_from (l : list Q) (k : nat) (best : Q) (bk : nat) : nat :=
  match l with [] => bk | x :: l => if Qltb best x then argmax_from l (S k) x k else argmax_from l (S k) best bk end.
Definition argmax (l : list Q) : nat := match l with [] => 0 | x :: l => argmax_from l 1 x 0 end%nat.
(** np.amin, np.amax of a non-empty array *)
Definition amin (l : list Q) : Q := match l with [] => 0 | x :: l => fold_left Qmin l x end.
Definition amax (l : list Q) : Q := match l with [] => 0 | x :: l => fold_left Qmax l x end.
Definition is_nil {A} (l : list A) : bool := match l with [] => true | _ => false end.

(** 511-568: _build.  [fuel] bounds the recursion depth. *)
Fixpoint build (fuel : nat) (leafsize : nat) (data : list (list Q)) (idx : list nat) (maxes mins : list Q) : res node :=
  match fuel with
  | O => Raises OutOfFuel
  | S fuel =>
    if (length idx <=? leafsize)%nat then Ok (Leaf idx)
    else
      let d := argmax (zipw Qminus maxes mins) in
      let maxval := nth d maxes 0 in
      let minval := nth d mins 0 in
      if Qeqb maxval minval then Ok (Leaf idx)
      else
        let col := at_ data d in
        let vals := map col idx in
        let split := (maxval + minval) / 2 in
        let less := filter (fun i => Qleb (col i) split) idx in
        let greater := filter (fun i => Qltb split (col i)) idx in
        let '(split, less, greater) :=
          if is_nil less then
            let split := amin vals in
            (split, filter (fun i => Qleb (col i) split) idx, filter (fun i => Qltb split (col i)) idx)
          else (split, less, greater) in
        let '(split, less, greater) :=
          if is_nil greater then
            let split := amax vals in
            (split, filter (fun i => Qltb (col i) split) idx, filter (fun i => Qleb split (col i)) idx)
          else (split, less, greater) in
        if is_nil less then
          if forallb (fun v => Qeqb v (hd 0 vals)) vals then Ok (Leaf idx) else Raises ValueError
        else
          bind (build fuel leafsize data less (set_nth d split maxes) mins) (fun l =>
          bind (build fuel leafsize data greater maxes (set_nth d split mins)) (fun g =>
          Ok (Inner d split l g)))
  end.

(** np.amax(self.data, axis=0), np.amin(self.data, axis=0): an error without rows *)
Definition maxes_of (data : list (list Q)) : res (list Q) :=
  match data with [] => Raises ValueError | x :: r => Ok (fold_left (zipw Qmax) r x) end.
Definition mins_of (data : list (list Q)) : res (list Q) :=
  match data with [] => Raises ValueError | x :: r => Ok (fold_left (zipw Qmin) r x) end.

Record kdtree := mkKD { kd_data : list (list Q); kd_maxes : list Q; kd_mins : list Q; kd_tree : node }.
(** 472-481: KDTree(data, leafsize) *)
Definition KDTree (data : list (list Q)) (leafsize : Z) : res kdtree :=
  if (leafsize <? 1)%Z then Raises ValueError
  else
    bind (maxes_of data) (fun maxes => bind (mins_of data) (fun mins =>
    bind (build (S (length data)) (Z.to_nat leafsize) data (seq 0 (length data)) maxes mins) (fun t =>
    Ok (mkKD data maxes mins t)))).

(** ** Radius queries *)
Fixpoint leaves (t : node) : list nat := match t with Leaf idx => idx | Inner _ _ l g => leaves l ++ leaves g end.
(** 748-765: traverse_checking; traverse_no_checking (767-772) is [leaves] *)
Fixpoint ball_point (data : list (list Q)) (p : pnorm) (x : list Q) (r eps : Q) (t : node) (rc : rect) : list nat :=
  if negb (root_le p (min_distance_point p rc x) (r / (1 + eps))) then []
  else if root_lt p (max_distance_point p rc x) (r * (1 + eps)) then leaves t
  else match t with
       | Leaf idx => filter (fun i => root_le p (minkowski_p p (row data i) x) r) idx
       | Inner d split l g =>
         let '(rl, rg) := rect_split rc d split in
         ball_point data p x r eps l rl ++ ball_point data p x r eps g rg
       end.
(** 745-815, for one point x: error when its length is not the number of dimensions *)
Definition query_ball_point (k : kdtree) (x : list Q) (r : Q) (p : pnorm) (eps : Q) : res (list nat) :=
  if negb (length x =? length (kd_maxes k))%nat then Raises ValueError
  else Ok (ball_point (kd_data k) p x r eps (kd_tree k) (mk_rect (kd_maxes k) (kd_mins k))).

(** 846-892: query_ball_tree as the list of (i, j) appended to results[i], in order.
    [pairs_nc] is traverse_no_checking (868-880). *)
Fixpoint pairs_nc (t1 t2 : node) : list (nat * nat) :=
  match t1 with
  | Leaf idx1 =>
    (fix go t2 := match t2 with
                  | Leaf idx2 => flat_map (fun i => map (fun j => (i, j)) idx2) idx1
                  | Inner _ _ l g => go l ++ go g
                  end) t2
  | Inner _ _ l g => pairs_nc l t2 ++ pairs_nc g t2
  end.
Fixpoint ball_tree (d1 d2 : list (list Q)) (p : pnorm) (r eps : Q) (t1 : node) : rect -> node -> rect -> list (nat * nat) :=
  fun r1 t2 r2 =>
  (fix go (t2 : node) : rect -> list (nat * nat) := fun r2 =>
  if negb (root_le p (min_distance_rectangle p r1 r2) (r / (1 + eps))) then []
  else if root_lt p (max_distance_rectangle p r1 r2) (r * (1 + eps)) then pairs_nc t1 t2
  else match t1 with
       | Leaf idx1 =>
         match t2 with
         | Leaf idx2 => flat_map (fun i => map (fun j => (i, j)) (filter (fun j => root_le p (minkowski_p p (row d2 j) (row d1 i)) r) idx2)) idx1
         | Inner d s l g => let '(rl, rg) := rect_split r2 d s in go l rl ++ go g rg
         end
       | Inner d s l1 g1 =>
         let '(rl1, rg1) := rect_split r1 d s in
         match t2 with
         | Leaf _ => ball_tree d1 d2 p r eps l1 rl1 t2 r2 ++ ball_tree d1 d2 p r eps g1 rg1 t2 r2
         | Inner d s l2 g2 =>
           let '(rl2, rg2) := rect_split r2 d s in
           ball_tree d1 d2 p r eps l1 rl1 l2 rl2 ++ ball_tree d1 d2 p r eps l1 rl1 g2 rg2 ++
           ball_tree d1 d2 p r eps g1 rg1 l2 rl2 ++ ball_tree d1 d2 p r eps g1 rg1 g2 rg2
         end
       end) t2 r2.
Definition query_ball_tree (k o : kdtree) (r : Q) (p : pnorm) (eps : Q) : list (list nat) :=
  let ps := ball_tree (kd_data k) (kd_data o) p r eps (kd_tree k) (mk_rect (kd_maxes k) (kd_mins k))
              (kd_tree o) (mk_rect (kd_maxes o) (kd_mins o)) in
  map (fun i => map snd (filter (fun ij : nat * nat => (fst ij =? i)%nat) ps)) (seq 0 (length (kd_data k))).

(** 894-1001: query_pairs.  id(node1) == id(node2): nodes are identified by their path from the root. *)
Definition path_eqb (a b : list bool) : bool := if list_eq_dec bool_dec a b then true else false.
(** the pair recorded for i, j: 927-928 when the nodes are the same, 933-936 otherwise *)
Definition pair_same (i j : nat) : list (nat * nat) := if (i <? j)%nat then [(i, j)] else [].
Definition pair_diff (i j : nat) : list (nat * nat) := if (i <? j)%nat then [(i, j)] else if (j <? i)%nat then [(j, i)] else [].
Definition leaf_pairs (same : bool) (idx1 : list nat) (close : nat -> nat -> bool) (idx2 : list nat) : list (nat * nat) :=
  flat_map (fun i => flat_map (fun j => if same then pair_same i j else pair_diff i j) (filter (close i) idx2)) idx1.
(** 965-1000 *)
Fixpoint self_nc (t1 : node) (p1 : list bool) : node -> list bool -> list (nat * nat) :=
  fun t2 p2 =>
  match t1 with
  | Leaf idx1 =>
    (fix go (t2 : node) : list bool -> list (nat * nat) := fun p2 =>
       match t2 with
       | Leaf idx2 => leaf_pairs (path_eqb p1 p2) idx1 (fun _ _ => true) idx2
       | Inner _ _ l g => go l (p2 ++ [false]) ++ go g (p2 ++ [true])
       end) t2 p2
  | Inner _ _ l1 g1 =>
    match path_eqb p1 p2, t2 with
    | true, Inner _ _ l2 g2 =>
      self_nc l1 (p1 ++ [false]) l2 (p2 ++ [false]) ++ self_nc l1 (p1 ++ [false]) g2 (p2 ++ [true]) ++ self_nc g1 (p1 ++ [true]) g2 (p2 ++ [true])
    | _, _ => self_nc l1 (p1 ++ [false]) t2 p2 ++ self_nc g1 (p1 ++ [true]) t2 p2
    end
  end.
(** 915-963 *)
Fixpoint self_pairs (data : list (list Q)) (p : pnorm) (r eps : Q) (t1 : node) (p1 : list bool) : rect -> node -> list bool -> rect -> list (nat * nat) :=
  fun r1 t2 p2 r2 =>
  (fix go (t2 : node) : list bool -> rect -> list (nat * nat) := fun p2 r2 =>
  if negb (root_le p (min_distance_rectangle p r1 r2) (r / (1 + eps))) then []
  else if root_lt p (max_distance_rectangle p r1 r2) (r * (1 + eps)) then self_nc t1 p1 t2 p2
  else match t1 with
       | Leaf idx1 =>
         match t2 with
         | Leaf idx2 => leaf_pairs (path_eqb p1 p2) idx1 (fun i j => root_le p (minkowski_p p (row data j) (row data i)) r) idx2
         | Inner d s l g => let '(rl, rg) := rect_split r2 d s in go l (p2 ++ [false]) rl ++ go g (p2 ++ [true]) rg
         end
       | Inner d s l1 g1 =>
         let '(rl1, rg1) := rect_split r1 d s in
         match t2 with
         | Leaf _ => self_pairs data p r eps l1 (p1 ++ [false]) rl1 t2 p2 r2 ++ self_pairs data p r eps g1 (p1 ++ [true]) rg1 t2 p2 r2
         | Inner d s l2 g2 =>
           let '(rl2, rg2) := rect_split r2 d s in
           self_pairs data p r eps l1 (p1 ++ [false]) rl1 l2 (p2 ++ [false]) rl2 ++
           self_pairs data p r eps l1 (p1 ++ [false]) rl1 g2 (p2 ++ [true]) rg2 ++
           (if path_eqb p1 p2 then [] else self_pairs data p r eps g1 (p1 ++ [true]) rg1 l2 (p2 ++ [false]) rl2) ++
           self_pairs data p r eps g1 (p1 ++ [true]) rg1 g2 (p2 ++ [true]) rg2
         end
       end) t2 p2 r2.
(** the elements added to the result set, with repetitions *)
Definition query_pairs (k : kdtree) (r : Q) (p : pnorm) (eps : Q) : list (nat * nat) :=
  let R := mk_rect (kd_maxes k) (kd_mins k) in self_pairs (kd_data k) p r eps (kd_tree k) [] R (kd_tree k) [] R.

(** 1026-1078: count_neighbors.  The increments are collected as (position of the radius, amount). *)
Fixpoint count_tree (d1 d2 : list (list Q)) (p : pnorm) (rs : list Q) (t1 : node) : rect -> node -> rect -> list nat -> list (nat * nat) :=
  fun r1 t2 r2 idx =>
  (fix go (t2 : node) : rect -> list nat -> list (nat * nat) := fun r2 idx =>
  let rad i := nth i rs 0 in
  let min_r := min_distance_rectangle p r1 r2 in
  let max_r := max_distance_rectangle p r1 r2 in
  let bulk := map (fun i => (i, (children t1 * children t2)%nat)) (filter (fun i => root_lt p max_r (rad i)) idx) in
  let idx := filter (fun i => root_le p min_r (rad i) && negb (root_lt p max_r (rad i))) idx in
  bulk ++
  (if is_nil idx then [] else
   match t1 with
   | Leaf idx1 =>
     match t2 with
     | Leaf idx2 =>
       (* np.searchsorted(sorted distances, r, side='right'): the number of distances at most r *)
       map (fun k => (k, length (filter (fun ij : nat * nat => root_le p (minkowski_p p (row d1 (fst ij)) (row d2 (snd ij))) (rad k)) (list_prod idx1 idx2)))) idx
     | Inner d s l g => let '(rl, rg) := rect_split r2 d s in go l rl idx ++ go g rg idx
     end
   | Inner d s l1 g1 =>
     let '(rl1, rg1) := rect_split r1 d s in
     match t2 with
     | Leaf _ => count_tree d1 d2 p rs l1 rl1 t2 r2 idx ++ count_tree d1 d2 p rs g1 rg1 t2 r2 idx
     | Inner d s l2 g2 =>
       let '(rl2, rg2) := rect_split r2 d s in
       count_tree d1 d2 p rs l1 rl1 l2 rl2 idx ++ count_tree d1 d2 p rs l1 rl1 g2 rg2 idx ++
       count_tree d1 d2 p rs g1 rg1 l2 rl2 idx ++ count_tree d1 d2 p rs g1 rg1 g2 rg2 idx
     end
   end)) t2 r2 idx.
Definition increments (k : nat) (l : list (nat * nat)) : nat := fold_right Nat.add 0%nat (map snd (filter (fun kv : nat * nat => (fst kv =? k)%nat) l)).
Definition count_neighbors (k o : kdtree) (rs : list Q) (p : pnorm) : list nat :=
  let inc := count_tree (kd_data k) (kd_data o) p rs (kd_tree k) (mk_rect (kd_maxes k) (kd_mins k)) (kd_tree o) (mk_rect (kd_maxes o) (kd_mins o)) (seq 0 (length rs)) in
  map (fun i => increments i inc) (seq 0 (length rs)).

(** 1080-1135: sparse_distance_matrix as the entries (i, j, distance to the power p) set, in order *)
Fixpoint sparse_tree (d1 d2 : list (list Q)) (p : pnorm) (r : Q) (t1 : node) : rect -> node -> rect -> list (nat * nat * Q) :=
  fun r1 t2 r2 =>
  (fix go (t2 : node) : rect -> list (nat * nat * Q) := fun r2 =>
  if negb (root_le p (min_distance_rectangle p r1 r2) r) then []
  else match t1 with
       | Leaf idx1 =>
         match t2 with
         | Leaf idx2 => flat_map (fun i => flat_map (fun j => let s := minkowski_p p (row d1 i) (row d2 j) in if root_le p s r then [(i, j, s)] else []) idx2) idx1
         | Inner d s l g => let '(rl, rg) := rect_split r2 d s in go l rl ++ go g rg
         end
       | Inner d s l1 g1 =>
         let '(rl1, rg1) := rect_split r1 d s in
         match t2 with
         | Leaf _ => sparse_tree d1 d2 p r l1 rl1 t2 r2 ++ sparse_tree d1 d2 p r g1 rg1 t2 r2
         | Inner d s l2 g2 =>
           let '(rl2, rg2) := rect_split r2 d s in
           sparse_tree d1 d2 p r l1 rl1 l2 rl2 ++ sparse_tree d1 d2 p r l1 rl1 g2 rg2 ++
           sparse_tree d1 d2 p r g1 rg1 l2 rl2 ++ sparse_tree d1 d2 p r g1 rg1 g2 rg2
         end
       end) t2 r2.
Definition sparse_distance_matrix (k o : kdtree) (r : Q) (p : pnorm) : list (nat * nat * Q) :=
  sparse_tree (kd_data k) (kd_data o) p r (kd_tree k) (mk_rect (kd_maxes k) (kd_mins k)) (kd_tree o) (mk_rect (kd_maxes o) (kd_mins o)).

(** ** Nearest neighbours, 570-641 *)
Record entry := mkE { e_min : Q; e_side : list Q; e_node : node }.
(** heapq contract: heappop removes some entry with the least first component.
    (Entries also compare by side distances; ties are left open.) *)
Definition heap_pop_contract (pop : list entry -> option (entry * list entry)) : Prop :=
  pop [] = None /\ forall q, q <> [] -> exists e q', pop q = Some (e, q') /\ Permutation q (e :: q') /\ Forall (fun e' => e_min e <= e_min e') q'.
(** the heap of neighbours (-distance, index), kept as a list in heappop order: largest distance first, then smallest index *)
Definition nb := (Q * nat)%type.
Definition nb_before (a b : nb) : bool := Qltb (fst b) (fst a) || (Qeqb (fst a) (fst b) && (snd a <? snd b)%nat).
Fixpoint nb_push (x : nb) (l : list nb) : list nb := match l with [] => [x] | y :: r => if nb_before x y then x :: y :: r else y :: nb_push x r end.
(** an upper bound, None is infinity *)
Definition lt_ub (x : Q) (ub : option Q) : bool := match ub with None => true | Some u => Qltb x u end.
(** [min_distance > ub * epsfac] *)
Definition gt_ub (x : Q) (ub : option Q) (f : Q) : bool := match ub with None => false | Some u => Qltb (u * f) x end.
(** len(neighbors) == k; k = None keeps everything *)
Definition full (k : option nat) (l : list nb) : bool := match k with None => false | Some k => (length l =? k)%nat end.
(** 607-614: one point of a leaf *)
Definition nb_step (k : option nat) (st : list nb * option Q) (x : nb) : list nb * option Q :=
  let '(l, ub) := st in
  if lt_ub (fst x) ub then
    let l := if full k l then tl l else l in
    let l := nb_push x l in
    (l, if full k l then match l with y :: _ => Some (fst y) | [] => ub end else ub)
  else (l, ub).
(** 600-636 *)
Fixpoint query_loop (pop : list entry -> option (entry * list entry)) (fuel : nat) (data : list (list Q)) (p : pnorm) (f : Q)
    (x : list Q) (k : option nat) (q : list entry) (l : list nb) (ub : option Q) : res (list nb) :=
  match fuel with
  | O => Raises OutOfFuel
  | S fuel =>
    match pop q with
    | None => Ok l
    | Some (e, q) =>
      match e_node e with
      | Leaf idx =>
        let '(l, ub) := fold_left (nb_step k) (map (fun i => (minkowski_p p (row data i) x, i)) idx) (l, ub) in
        query_loop pop fuel data p f x k q l ub
      | Inner d split less greater =>
        if gt_ub (e_min e) ub f then Ok l
        else
          let '(near, far) := if Qltb (nth d x 0) split then (less, greater) else (greater, less) in
          let q := mkE (e_min e) (e_side e) near :: q in
          let gap := Qabs (split - nth d x 0) in
          let e' := match p with
                    | PInf => mkE (Qmax (e_min e) gap) (e_side e) far
                    | PN n => mkE (e_min e - nth d (e_side e) 0 + qpow gap n) (set_nth d (qpow gap n) (e_side e)) far
                    end in
          query_loop pop fuel data p f x k (if gt_ub (e_min e') ub f then q else e' :: q) l ub
      end
    end
  end.
Fixpoint nodes (t : node) : nat := match t with Leaf _ => 1 | Inner _ _ l g => S (nodes l + nodes g) end.
Definition nb_le (a b : nb) : bool := Qltb (fst a) (fst b) || (Qeqb (fst a) (fst b) && (snd a <=? snd b)%nat).
Fixpoint nb_insert (x : nb) (l : list nb) : list nb := match l with [] => [x] | y :: r => if nb_le x y then x :: y :: r else y :: nb_insert x r end.
Definition nb_sort (l : list nb) : list nb := fold_right nb_insert [] l.
(** 586-598 and the checks of query (700-706): p >= 1, length of x.  The hits, as (distance to the power p, index). *)
Definition query (pop : list entry -> option (entry * list entry)) (kd : kdtree) (x : list Q) (k : option nat) (eps : Q) (p : pnorm)
    (distance_upper_bound : option Q) : res (list nb) :=
  if negb (length x =? length (kd_maxes kd))%nat then Raises ValueError
  else if match p with PN O => true | _ => false end then Raises ValueError
  else if match k with Some O => true | _ => false end then Raises ValueError
  else
    let side := map (pw p) (zipw (fun x (b : Q * Q) => Qmax 0 (Qmax (x - snd b) (fst b - x))) x (combine (kd_mins kd) (kd_maxes kd))) in
    let md := match p with PN _ => fold_right Qplus 0 side | PInf => fold_right Qmax 0 side end in
    let epsfac := if Qeqb eps 0 then 1 else match p with PInf => 1 / (1 + eps) | PN n => 1 / qpow (1 + eps) n end in
    bind (query_loop pop (S (nodes (kd_tree kd))) (kd_data kd) p epsfac x k [mkE md side (kd_tree kd)] [] (option_map (pw p) distance_upper_bound))
      (fun l => Ok (nb_sort l)).
