(** C77: what a two-dimensional plot of gridded data draws. *)
From Coq Require Import QArith Qabs.
From Verif Require Import Base QBase MeshModel MeshSpec MeshProofs Mesh2Proofs.
Open Scope nat_scope.

(** x and y along the two dimensions of the data, x across after the plot is turned (or the data not square): every element is drawn at its own coordinates.
    There is one more column if, and only if, the axis across is evenly spaced: it repeats the first column one step beyond the last. *)
Theorem C77_points_partial : forall {V} tr aux r c (data : list (list V)), rectangle r c data -> forall lx dx bx ly dy by_,
  2 <= columns tr r c -> dx <> dy -> length lx = extent dx r c -> length ly = extent dy r c -> flip tr dx = Across \/ r <> c ->
  exists D mx my extra, unpack_data_items PointMode tr aux r c data (mkCoord (A1 lx) bx) (mkCoord (A1 ly) by_) = Ok (D, A2 mx, A2 my) /\ extra <= 1 /\ (extra = 1 <-> nearly_even (across tr dx lx ly)) /\ draws tr r c data lx dx ly dy extra D mx my /\
    (extra = 1 -> let '(along, other) := oriented tr dx mx my in repeats_first (rows tr r c) (columns tr r c) (across tr dx lx ly) D along other).
Proof. intros V tr aux r c data R lx dx bx ly dy by_. exact (points_ok tr aux r c data R lx dx ly dy). Qed.
Print Assumptions C77_points_partial.

(** For evenly spaced longitudes around the globe the repeated column is the first meridian, 360 degrees on. *)
Theorem C77_longitude : forall (l : list Q) a0 d c b0 z, (forall k v, nth_error l k = Some v -> (v == a0 + inject_Z (Z.of_nat k) * d)%Q) -> nth_error l 1 = Some b0 -> nth_error l 0 = Some a0 -> nth_error l (c - 1) = Some z -> 1 <= c ->
  (inject_Z (Z.of_nat c) * d == 360)%Q -> (z + (b0 - a0) == a0 + 360)%Q.
Proof. exact globe. Qed.
Print Assumptions C77_longitude.

(** One axis hybrid (given for every element of the data), the other across: every element is drawn at its own coordinates. *)
Theorem C77_hybrid_partial : forall {V} tr r c (data : list (list V)) l bl d h bh, rectangle r c data -> 0 < r -> 0 < c -> rectangle r c h -> length l = extent d r c -> flip tr d = Across ->
  (exists D ml mh, unpack_data_items PointMode tr true r c data (mkCoord (A1 l) bl) (mkCoord (A2 h) bh) = Ok (D, A2 ml, A2 mh) /\ draws_hybrid tr r c data l d h D ml mh) /\
  (exists D ml mh, unpack_data_items PointMode tr true r c data (mkCoord (A2 h) bh) (mkCoord (A1 l) bl) = Ok (D, A2 mh, A2 ml) /\ draws_hybrid tr r c data l d h D ml mh).
Proof. intros V tr r c data l bl d h bh. exact (hybrid_ok tr r c data l d h). Qed.
Print Assumptions C77_hybrid_partial.

(** A heat map (drawn between the bounds of the cells), x across: the bounds are passed on as they are, unless there is one more column than rows. *)
Theorem C77_heatmap_partial : forall {V} tr aux r c (data : list (list V)) px bx dx py by_ dy, rectangle r c data -> dx <> dy -> length bx = S (extent dx r c) -> length by_ = S (extent dy r c) -> flip tr dx = Across ->
  columns tr r c <> S (rows tr r c) -> exists D, unpack_data_items BoundMode tr aux r c data (mkCoord px (Ok (A1 bx))) (mkCoord py (Ok (A1 by_))) = Ok (D, A1 bx, A1 by_) /\ rectangle (rows tr r c) (columns tr r c) D /\ fits (rows tr r c) (columns tr r c) (A1 bx) (A1 by_) /\
    forall p q, p < r -> q < c -> let '(i, j) := place tr p q in cell D i j = cell data p q /\ index dx p q = j /\ index dy p q = i.
Proof. intros V tr aux r c data px bx dx py by_ dy. exact (heatmap_ok tr aux r c data bx dx by_ dy). Qed.
Print Assumptions C77_heatmap_partial.

(** Refuted: nothing is drawn that is not in the data.  An axis that is not a longitude, such as times 0, 1, 2, is also continued: the value of time 0 is drawn at time 3. *)
Theorem C77_extra_refuted : ~ forall (data : list (list Q)) r c lx ly D mx my, rectangle r c data -> length lx = c -> length ly = r ->
  unpack_data_items PointMode false false r c data (mkCoord (A1 lx) (Raises ValueError)) (mkCoord (A1 ly) (Raises ValueError)) = Ok (D, A2 mx, A2 my) -> forall i j x v, cell mx i j = Some x -> cell D i j = Some v -> exists k, nth_error lx k = Some x /\ cell data i k = Some v.
Proof.
  intros H. specialize (H [[10; 20; 30]; [40; 50; 60]]%Q 2 3 [0; 1; 2]%Q [5; 6]%Q _ _ _ ltac:(split; [reflexivity|repeat constructor]) eq_refl eq_refl eq_refl 0 3 _ _ eq_refl eq_refl).
  destruct H as (k & Hk & _). destruct k as [|[|[|k]]]; cbn in Hk; try discriminate. destruct k; discriminate.
Qed.
Print Assumptions C77_extra_refuted.

(** Refuted: x may be either dimension.  For square data whose x axis is down and which the plot does not turn, the picture is transposed. *)
Theorem C77_square_refuted : ~ forall (data : list (list Q)) r c lx ly D mx my, rectangle r c data -> length lx = r -> length ly = c ->
  unpack_data_items PointMode false false r c data (mkCoord (A1 lx) (Raises ValueError)) (mkCoord (A1 ly) (Raises ValueError)) = Ok (D, A2 mx, A2 my) -> forall i j p q v, cell mx i j = nth_error lx p -> cell my i j = nth_error ly q -> p < r -> q < c -> cell D i j = Some v -> cell data p q = Some v.
Proof.
  intros H. specialize (H [[1; 2]; [3; 4]]%Q 2 2 [10; 20]%Q [30; 50]%Q _ _ _ ltac:(split; [reflexivity|repeat constructor]) eq_refl eq_refl eq_refl 0 1 1 0 _ eq_refl eq_refl (le_n 2) (le_S _ _ (le_n 1)) eq_refl). discriminate.
Qed.
Print Assumptions C77_square_refuted.

(** Refuted for a hybrid coordinate too: an axis down is spread in an array of the shape of the transposed data, varying across. *)
Theorem C77_hybrid_refuted : forall {V} r c (data : list (list V)) l bl h bh, rectangle r c data -> 0 < r -> 0 < c -> rectangle r c h -> length l = r ->
  exists ml, unpack_data_items PointMode false true r c data (mkCoord (A1 l) bl) (mkCoord (A2 h) bh) = Ok (data, A2 ml, A2 h) /\ rectangle c r ml /\ forall i j, i < c -> cell ml i j = nth_error l j.
Proof. intros V r c data l bl h bh. exact (hybrid_down_bad r c data l h). Qed.
Print Assumptions C77_hybrid_refuted.

(** Refuted: every heat map with one more column than rows is given arrays that do not fit. *)
Theorem C77_heatmap_refuted : forall {V} aux r c (data : list (list V)) px bx py by_ D x y, rectangle r c data -> 0 < r -> length bx = S c -> length by_ = S r -> c = S r ->
  unpack_data_items BoundMode false aux r c data (mkCoord px (Ok (A1 bx))) (mkCoord py (Ok (A1 by_))) = Ok (D, x, y) -> length D = r /\ ~ fits r (ncols D) x y.
Proof. intros V aux r c data px bx py by_. exact (heatmap_bad aux r c data bx by_). Qed.
Print Assumptions C77_heatmap_refuted.

(** Refuted: so is every heat map of data that is not square and whose x axis is down. *)
Theorem C77_heatmap_swapped_refuted : forall {V} aux r c (data : list (list V)) px bx py by_ D x y, rectangle r c data -> 0 < r -> 0 < c -> length bx = S r -> length by_ = S c -> r <> c ->
  unpack_data_items BoundMode false aux r c data (mkCoord px (Ok (A1 bx))) (mkCoord py (Ok (A1 by_))) = Ok (D, x, y) -> length D = r /\ ~ fits r (ncols D) x y.
Proof. intros V aux r c data px bx py by_. exact (heatmap_swapped aux r c data bx by_). Qed.
Print Assumptions C77_heatmap_swapped_refuted.

Example C77_map : cube_manipulation false false 2 4 [[1; 2; 3; 4]; [5; 6; 7; 8]] (A1 [0; 90; 180; 270]%Q) (A1 [-45; 45]%Q) =
  Ok ([[1; 2; 3; 4; 1]; [5; 6; 7; 8; 5]], A2 [[0; 90; 180; 270; 360]; [0; 90; 180; 270; 360]]%Q, A2 [[-45; -45; -45; -45; -45]; [45; 45; 45; 45; 45]]%Q).
Proof. reflexivity. Qed.
Example C77_uneven : cube_manipulation true false 3 2 [[1; 2]; [3; 4]; [5; 6]] (A1 [1000; 850; 500]%Q) (A1 [-45; 45]%Q) =
  Ok ([[1; 3; 5]; [2; 4; 6]], A2 [[1000; 850; 500]; [1000; 850; 500]]%Q, A2 [[-45; -45; -45]; [45; 45; 45]]%Q).
Proof. reflexivity. Qed.
Example C77_heat_case : cube_manipulation false false 2 3 [[1; 2; 3]; [4; 5; 6]] (A1 [0; 1; 2; 3]%Q) (A1 [0; 1; 3]%Q) =
  Ok ([[1; 2; 3]; [4; 5; 6]], A2 [[0; 0; 0]; [1; 1; 1]; [2; 2; 2]; [3; 3; 3]]%Q, A2 [[0; 1; 3]; [0; 1; 3]; [0; 1; 3]; [0; 1; 3]]%Q).
Proof. reflexivity. Qed.
Example C77_hybrid_case : cube_manipulation true true 2 3 [[1; 2; 3]; [4; 5; 6]] (A1 [10; 20]%Q) (A2 [[1; 2; 3]; [4; 5; 6]]%Q) =
  Ok ([[1; 4]; [2; 5]; [3; 6]], A2 [[10; 20]; [10; 20]; [10; 20]]%Q, A2 [[1; 4]; [2; 5]; [3; 6]]%Q).
Proof. reflexivity. Qed.
