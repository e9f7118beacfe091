(** C30-C33: the theorems. *)
From Coq Require Import String.
From Verif Require Import Base PyStr QBase LonModel LonSpec UngrModel UngrSpec SubsetModel SubsetSpec SubsetProofs Subset2Proofs Subset3Proofs.
From Coq Require Import List.
Import ListNotations.
Open Scope string_scope. Open Scope list_scope. Open Scope Q_scope. Notation length := List.length.

(** ** Examples of data *)
Definition named_coord (name axis : string) (p : list Q) : coord := mkCoord (Some (lit name)) [] (lit name) (lit axis) [length p] (map Some p).
Definition example (lons lats : list Q) (v : list Q) : udata := mkU [named_coord "latitude" "Y" lats; named_coord "longitude" "X" lons] [length v] (map Some v).
Definition d1 := example [10; 20; 30; 40] [1; 2; 3; 4] [100; 200; 300; 400].
Ltac own := split; [repeat constructor; vm_compute; intuition discriminate|let i := fresh "i" in let j := fresh "j" in let a := fresh "a" in let b := fresh "b" in intros [|[|[|i]]] [|[|[|j]]] a b; cbn [nth_error u_coords example]; intros Ha Hb; try discriminate Ha; try discriminate Hb; auto; injection Ha as <-; injection Hb as <-; intros E; vm_compute in E; discriminate E].
Example d1_proper : proper d1.
Proof. split; [|split; [discriminate|]]. - repeat constructor. - own. Qed.

(** ** C30: exactly the points within the limits, in order, or nothing exactly if there are none *)
Theorem C30_limits_partial : forall d kws ls, proper d -> says d kws ls -> NoDup (map fst ls) -> (forall l, In l ls -> ~ is_lon d (fst l)) -> (located_rows d <> [] \/ Forall bounded ls) ->
  exists r, subset d kws = Ok r /\ result_rows d (filter (qualifies ls) (located_rows d)) r.
Proof. exact subset_plain. Qed.
Print Assumptions C30_limits_partial.
Example C30_limits_example : subset d1 [Limit (lit "y") (Some 2) None] <> Ok None /\ says d1 [Limit (lit "y") (Some 2) None] [(0%nat, (Some 2, None))].
Proof.
  split; [vm_compute; discriminate|]. constructor; [|constructor]. exists (lit "y"). split; [reflexivity|]. apply (addr_axis _ _ _ (named_coord "latitude" "Y" [1; 2; 3; 4]) (lit "latitude")); [reflexivity| |vm_compute; auto|reflexivity].
  intros x [<-|[<-|[]]]; split; vm_compute; discriminate.
Qed.
(** with longitude limits too: the same on longitudes moved by whole turns *)
Theorem C30_with_longitude_partial : forall d kws ls, proper d -> says d kws ls -> NoDup (map fst ls) -> (forall l, In l ls -> is_lon d (fst l) -> bounded l) -> located_rows d <> [] ->
  exists k f r, subset d kws = Ok r /\ (forall x, same_meridian x (f x)) /\ (is_lon d k \/ forall x, f x = x) /\ result_rows d (filter (qualifies ls) (map (change k f) (located_rows d))) r.
Proof. exact subset_meridian. Qed.
Print Assumptions C30_with_longitude_partial.
Example C30_with_longitude_example : says d1 [Limit (lit "longitude") (Some 15) (Some 30)] [(1%nat, (Some 15, Some 30))] /\ located_rows d1 <> [] /\
  match subset d1 [Limit (lit "longitude") (Some 15) (Some 30)] with Ok (Some r) => map snd (rows r) = [Some 200; Some 300] | _ => False end.
Proof. split; [|split; [vm_compute; discriminate|vm_compute; reflexivity]]. constructor; [|constructor]. eexists. split; [reflexivity|]. eapply addr_name; reflexivity. Qed.
(** a keyword that means nothing is refused *)
Theorem C30_unknown_name : forall d n a b kws, proper d -> length (u_coords d) <> 1%nat ->
  (forall c, In c (u_coords d) -> c_name c <> n /\ c_std c <> Some n /\ c_var c <> n /\ c_axis c <> upper n /\ forall s, axis_name (upper n) s -> c_std c <> Some s) ->
  subset d (Limit n a b :: kws) = Raises CoordinateNotFoundError.
Proof. exact unknown_name. Qed.
Print Assumptions C30_unknown_name.
Example C30_unknown_name_example : subset d1 [Limit (lit "height") (Some 2) None] = Raises CoordinateNotFoundError.
Proof. vm_compute. reflexivity. Qed.
(** what is missing: two coordinates without standard names cannot be copied; with a single coordinate any keyword is taken for it; a limit on an empty
    data set fails; of two keywords for one coordinate only the last counts; a limit before the shape is replaced by the bounding box; a shape with no point in
    it, or variables in a list without any point left, are errors *)
Definition unnamed (var : string) (p : list Q) : coord := mkCoord None [] (lit var) [] [length p] (map Some p).
Definition square (x0 y0 x1 y1 : Q) : region := mkRegion x0 y0 x1 y1 (fun x y => Qltb x0 x && Qltb x x1 && Qltb y0 y && Qltb y y1).
Theorem C30_refuted :
  (exists d kws, aligned d /\ subset d kws = Raises DuplicateCoordinateError) /\
  (exists d r, proper d /\ subset d [Limit (lit "nonsense") (Some 2) (Some 3)] = Ok (Some r) /\ rows r <> rows d) /\
  (exists d, proper d /\ subset d [Limit (lit "longitude") (Some 2) (Some 3)] = Raises ValueError) /\
  (subset d1 [Limit (lit "longitude") (Some 10) (Some 20); Limit (lit "x") (Some 30) (Some 40)] = subset d1 [Limit (lit "x") (Some 30) (Some 40)]) /\
  (subset d1 [Limit (lit "longitude") (Some 10) (Some 20); Shape (square 0 0 50 50)] = subset d1 [Shape (square 0 0 50 50)]) /\
  (subset d1 [Shape (square 0 0 5 5)] = Raises TypeError) /\
  (subset_list [d1; d1] [Limit (lit "latitude") (Some 50) (Some 60)] = Raises TypeError).
Proof.
  split; [exists (mkU [unnamed "a" [1]; unnamed "b" [2]] [1%nat] [Some 5]), []; split; [repeat constructor|reflexivity]|].
  split. { exists (mkU [named_coord "latitude" "Y" [1; 2]] [2%nat] [Some 5; Some 6]). eexists. split; [|split; [vm_compute; reflexivity|vm_compute; discriminate]]. split; [repeat constructor|]. split; [discriminate|]. split; [repeat constructor; auto|]. intros [|[|i]] [|[|j]] a b; cbn; intros; try discriminate; auto. }
  split. { exists (example [] [] []). split; [|reflexivity]. split; [repeat constructor|]. split; [discriminate|]. own. }
  repeat split; reflexivity.
Qed.
Print Assumptions C30_refuted.

(** ** C31: off the seam a longitude range selects by position on the globe, whatever the conventions *)
Theorem C31_off_seam_partial : forall d kws ls kx a b data_west limits_west, proper d -> says d kws ls -> NoDup (map fst ls) -> located_rows d <> [] -> is_lon d kx -> In (kx, (Some a, Some b)) ls ->
  (forall r x, In r (located_rows d) -> nth kx (fst r) None = Some x -> convention x data_west /\ ~ same_meridian x 180) -> convention a limits_west -> convention b limits_west ->
  exists r f p, subset d kws = Ok r /\ (forall x, same_meridian x (f x)) /\
    (forall x, In x (located_rows d) -> (p x = true <-> qualifies (filter (fun l => negb (fst l =? kx)%nat) ls) x = true /\ exists lon y, nth kx (fst x) None = Some lon /\ same_meridian lon y /\ (a <= y <= b)%Q)) /\
    result_rows d (map (change kx f) (filter p (located_rows d))) r.
Proof. exact subset_off_seam. Qed.
Print Assumptions C31_off_seam_partial.
Definition d2 := example [-(170); -(10); 20; 170] [1; 2; 3; 4] [100; 200; 300; 400].
Example C31_off_seam_example : proper d2 /\ says d2 [Limit (lit "longitude") (Some 160) (Some 200)] [(1%nat, (Some 160, Some 200))] /\ located_rows d2 <> [] /\ is_lon d2 1 /\
  (forall r x, In r (located_rows d2) -> nth 1 (fst r) None = Some x -> convention x true /\ ~ same_meridian x 180) /\ convention 160 false /\ convention 200 false /\
  match subset d2 [Limit (lit "longitude") (Some 160) (Some 200)] with Ok (Some r) => map snd (rows r) = [Some 100; Some 400] | _ => False end.
Proof.
  split. { split; [repeat constructor|]. split; [discriminate|]. own. }
  split. { constructor; [|constructor]. eexists. split; [reflexivity|]. eapply addr_name; reflexivity. }
  split; [vm_compute; discriminate|]. split; [eexists; split; reflexivity|]. split.
  - assert (NM : forall x, (-(180) < x < 180)%Q -> ~ same_meridian x 180).
    { intros x Hx [k E]. assert (K : (0 < inject_Z k /\ inject_Z k < 1)%Q) by (split; Lqa.lra). destruct K as [K1 K2]. change 0%Q with (inject_Z 0) in K1. change 1%Q with (inject_Z 1) in K2. rewrite <- Zlt_Qlt in K1, K2. lia. }
    intros r x Hr. vm_compute in Hr. destruct Hr as [<-|[<-|[<-|[<-|[]]]]]; cbn [nth fst]; intros E; injection E as <-; (split; [split; vm_compute; discriminate|apply NM; split; reflexivity]).
  - split; [split; [vm_compute; discriminate|reflexivity]|]. split; [split; [vm_compute; discriminate|reflexivity]|]. vm_compute. reflexivity.
Qed.
(** on the seam, and when the limits leave the convention of the data on both sides, points are missed *)
Theorem C31_refuted :
  (let d := example [180; 200] [1; 2] [100; 200] in subset d [Limit (lit "longitude") (Some (-(10))) (Some 180)] = Ok None) /\
  (same_meridian (-(170)) 190 /\ let d := example [-(170); 10] [1; 2] [100; 200] in match subset d [Limit (lit "longitude") (Some (-(20))) (Some 200)] with Ok (Some r) => map snd (rows r) = [Some 200] | _ => False end) /\
  (same_meridian 0 360 /\ let d := example [-(20); 0] [1; 2] [100; 200] in subset d [Limit (lit "longitude") (Some 350) (Some 360)] = Ok None).
Proof.
  split; [vm_compute; reflexivity|]. split; [split; [exists 1%Z; vm_compute; reflexivity|vm_compute; reflexivity]|]. split; [exists 1%Z; vm_compute; reflexivity|vm_compute; reflexivity].
Qed.
Print Assumptions C31_refuted.

(** ** C32 *)
(** limits without a shape: every variable is subsetted as it would be alone *)
Theorem C32_limits_partial : forall ds d0 kws, Forall (same_coordinates d0) ds -> aligned d0 -> complete d0 -> limits_only kws ->
  match subset d0 kws with
  | Ok (Some r0) => exists rs, subset_list (d0 :: ds) kws = Ok (r0 :: rs) /\ Forall2 (fun d r => subset d kws = Ok (Some r)) ds rs
  | Ok None => subset_list (d0 :: ds) kws = Raises TypeError
  | Raises e => subset_list (d0 :: ds) kws = Raises e
  end.
Proof. exact subset_list_each. Qed.
Print Assumptions C32_limits_partial.
Definition d1b := example [10; 20; 30; 40] [1; 2; 3; 4] [5; 6; 7; 8].
Example C32_limits_example : same_coordinates d1 d1b /\ aligned d1 /\ complete d1 /\ match subset_list [d1; d1b] [Limit (lit "y") (Some 2) (Some 3)] with Ok [a; b] => map snd (rows a) = [Some 200; Some 300] /\ map snd (rows b) = [Some 6; Some 7] | _ => False end.
Proof. split; [split; reflexivity|]. split; [repeat constructor|]. split; [intros r [<-|[<-|[<-|[<-|[]]]]]; reflexivity|]. vm_compute. split; reflexivity. Qed.
(** one variable and a shape: exactly the points in the shape (and within the other limits); if there are none, an error *)
Theorem C32_one_variable_partial : forall d g pre post ls1 ls2 kx ky, proper d -> boxed g -> is_lon d kx -> is_lat d ky -> says d pre ls1 -> says d post ls2 -> NoDup (kx :: ky :: map fst (ls1 ++ ls2)) -> located_rows d <> [] ->
  exists f, (forall x, same_meridian x (f x)) /\
    let rs := filter (in_shape g kx ky) (filter (qualifies (ls1 ++ ls2)) (map (change kx f) (located_rows d))) in
    match subset d (pre ++ Shape g :: post) with
    | Ok r => result_rows d rs r /\ rs <> []
    | Raises e => e = TypeError /\ rs = []
    end.
Proof. exact subset_shape. Qed.
Print Assumptions C32_one_variable_partial.
Example C32_one_variable_example : boxed (square 15 0 35 50) /\ match subset d1 [Shape (square 15 0 35 50)] with Ok (Some r) => map snd (rows r) = [Some 200; Some 300] | _ => False end.
Proof.
  split; [|vm_compute; reflexivity]. intros x y H. cbn [square r_contains r_xmin r_xmax r_ymin r_ymax] in *. rewrite !andb_true_iff, !Qltb_lt in H. destruct H as [[[H1 H2] H3] H4]. repeat split; apply Qlt_le_weak; auto.
Qed.
(** in a list only the first variable gets the shape: the others keep all points of the bounding box, and the list is refused unless that makes no difference *)
Theorem C32_refuted : boxed (mkRegion 10 0 40 3 (fun x y => Qltb 10 x && Qltb x 40 && Qltb 0 y && Qltb y 3)) /\
  let g := mkRegion 10 0 40 3 (fun x y => Qltb 10 x && Qltb x 40 && Qltb 0 y && Qltb y 3) in
  match subset d1 [Shape g] with Ok (Some _) => True | _ => False end /\ match subset d1b [Shape g] with Ok (Some _) => True | _ => False end /\ subset_list [d1; d1b] [Shape g] = Raises ValueError.
Proof.
  split; [|vm_compute; auto]. intros x y H. cbn [r_contains r_xmin r_xmax r_ymin r_ymax] in *. rewrite !andb_true_iff, !Qltb_lt in H. destruct H as [[[H1 H2] H3] H4]. repeat split; apply Qlt_le_weak; auto.
Qed.
Print Assumptions C32_refuted.

(** ** C33: data without a mask, Y before X: missing exactly outside.  With a mask: the mask before and outside *)
Theorem C33_mask_partial : forall r g, yx_grid g -> (exists j i, (j < length (g_ys g))%nat /\ (i < length (g_xs g))%nat /\ r_contains r (nth i (g_xs g) 0) (nth j (g_ys g) 0) = true) ->
  exists m, shape_subset r g = Ok m /\ length m = (length (g_ys g) * length (g_xs g))%nat /\ forall j i, (j < length (g_ys g))%nat -> (i < length (g_xs g))%nat ->
    nth (cell g j i) m false = let outside := negb (r_contains r (nth i (g_xs g) 0) (nth j (g_ys g) 0)) in match g_mask g with Some old => nth (cell g j i) old false && outside | None => outside end.
Proof. exact shape_subset_mask. Qed.
Print Assumptions C33_mask_partial.
Definition g1 (m : option (list bool)) : grid := mkGrid [2; 3]%nat [10; 20; 30] [1; 2] m.
Example C33_mask_example : yx_grid (g1 None) /\ shape_subset (square 15 0 50 (3#2)) (g1 None) = Ok [true; false; false; true; true; true].
Proof. split; [split; [reflexivity|exact I]|vm_compute; reflexivity]. Qed.
(** so in a masked array the cells outside stay, and those missing inside come back; X before Y masks the wrong cells; a shape without any cell is an error *)
Theorem C33_refuted :
  (let g := g1 (Some [false; true; false; false; false; false]) in yx_grid g /\
   match shape_subset (square 15 0 50 (3#2)) g with Ok m => (nth (cell g 0 0) m false = false /\ was_missing g (cell g 0 0) = false) /\ (was_missing g (cell g 0 1) = true /\ nth (cell g 0 1) m false = false) | _ => False end) /\
  (let g := mkGrid [3; 2]%nat [10; 20; 30] [1; 2] None in
   shape_subset (square 15 0 50 (3#2)) g = Ok [true; false; false; true; true; true] (* the cells (x,y) = (10,2), (20,1), not (20,1), (30,1) *)) /\
  (shape_subset (square 100 100 101 101) (g1 None) = Raises TypeError) /\
  (shape_subset (square 15 0 50 (3#2)) (mkGrid [1; 2; 3]%nat [10; 20; 30] [1; 2] None) = Raises NotImplementedError).
Proof. split; [split; [split; reflexivity|vm_compute; auto]|]. repeat split; vm_compute; reflexivity. Qed.
Print Assumptions C33_refuted.
