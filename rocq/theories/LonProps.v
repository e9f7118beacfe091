(** Properties C05 (wrapping longitudes) and C06 (rotating a gridded longitude axis). *)
From Verif Require Import Base QBase LonModel LonSpec LonProofs.
Open Scope Q_scope.

(** set_longitude_range on ungridded data: the i-th longitude of the result is the i-th old one, on the same meridian, in
    the range, unchanged if already there, and a second application changes nothing. *)
Theorem C05_ungridded_wrap : forall lons s,
  length (fix_longitude_range lons s) = length lons
  /\ forall i x, nth_error lons i = Some x ->
       exists y, nth_error (fix_longitude_range lons s) i = Some y
         /\ in_range s y /\ same_meridian x y /\ (in_range s x -> y == x)
         /\ exists z, nth_error (fix_longitude_range (fix_longitude_range lons s) s) i = Some z /\ z == y.
Proof. exact fix_longitude_range_all. Qed.
Print Assumptions C05_ungridded_wrap.

Example C05_example : map Qred (fix_longitude_range [-(185); 0; 179; 180; 725] (-(180))) = [175; 0; 179; -(180); 5].
Proof. reflexivity. Qed.

(** The point-by-point views (ungridded and gridded) shift by at most one turn: right for every longitude less than one
    turn outside the range, on the right meridian always. *)
Theorem C05_views_wrap : forall s x,
  same_meridian x (view_wrap_lon s x) /\ same_meridian x (gridded_view_wrap_lon s x)
  /\ (s - 360 <= x < s + 720 -> in_range s (view_wrap_lon s x) /\ in_range s (gridded_view_wrap_lon s x))
  /\ (in_range s x -> view_wrap_lon s x == x /\ gridded_view_wrap_lon s x == x).
Proof. exact views_wrap. Qed.
Print Assumptions C05_views_wrap.

Example C05_views_example : in_range (-(180)) (view_wrap_lon (-(180)) 350) /\ view_wrap_lon (-(180)) 350 == -(10).
Proof. split; [apply view_wrap_range; lra|]. reflexivity. Qed.

(** Collocation's choice of range contains all sample longitudes, whichever of the two conventions they use. *)
Theorem C05_detected_range_contains_points : forall pts s,
  find_longitude_range pts = Ok s -> (Forall (fun x => -(180) <= x < 180) pts \/ Forall (fun x => 0 <= x < 360) pts) ->
  (s = 0 \/ s = -(180)) /\ Forall (in_range s) pts.
Proof. exact find_longitude_range_contains. Qed.
Print Assumptions C05_detected_range_contains_points.

Example C05_detected_range_example :
  find_longitude_range [10; -(20); 170] = Ok (-(180)) /\ find_longitude_range [10; 270] = Ok 0.
Proof. split; reflexivity. Qed.

(** A subset range written with its start east of its end is unwrapped into the same meridians, less than a turn wide. *)
Theorem C05_wrap_pair : forall a b,
  let '(a', b') := wrap_longitude_coordinate_values a b in
  same_meridian a a' /\ same_meridian b b' /\ (a - 360 <= b -> a' <= b') /\ (b < a -> b' - a' < 360) /\ (a <= b -> a' = a /\ b' = b).
Proof. exact wrap_pair. Qed.
Print Assumptions C05_wrap_pair.

(** Rotating a gridded longitude axis that has at least one longitude in the requested range: the result increases
    strictly, lies in the range, and is a rearrangement of the old columns, each moved with its bounds by whole turns.
    What is missing from C06: axes lying wholly outside the range. *)
Theorem C06_rotation_keeps_columns_partial : forall (A : Type) (ax : lon_axis A) s,
  well_formed ax -> increasing (lon_points ax) -> spans_less_than_turn (lon_points ax) ->
  (exists x, In x (lon_points ax) /\ in_range s x) ->
  let ax' := set_longitude_range ax s in
  increasing (lon_points ax') /\ Forall (in_range s) (lon_points ax') /\ well_formed ax'
  /\ exists old, Permutation (table ax) old /\ Forall2 moved old (table ax').
Proof. exact (@set_longitude_range_correct). Qed.
Print Assumptions C06_rotation_keeps_columns_partial.

Definition example_axis : lon_axis nat := mkAxis [0; 90; 180; 270] (Some [(-(45), 45); (45, 135); (135, 225); (225, 315)]) [0; 1; 2; 3]%nat.
Example C06_example :
  well_formed example_axis /\ increasing (lon_points example_axis) /\ spans_less_than_turn (lon_points example_axis)
  /\ (exists x, In x (lon_points example_axis) /\ in_range (-(180)) x)
  /\ set_longitude_range example_axis (-(180)) =
     mkAxis [180 + -(360); 270 + -(360); 0; 90] (Some [(135 + -(360), 225 + -(360)); (225 + -(360), 315 + -(360)); (-(45), 45); (45, 135)]) [2; 3; 0; 1]%nat.
Proof.
  split; [split; reflexivity|]. split; [repeat (constructor; simpl; try reflexivity)|].
  split; [intros x y Hx Hy; simpl in *; intuition (subst; reflexivity)|].
  split; [exists 0; split; [simpl; auto|split; [discriminate|reflexivity]]|]. reflexivity.
Qed.

(** Finding: an axis lying wholly west or wholly east of the range is left as it is. *)
Theorem C06_axis_outside_range_unchanged : forall (A : Type) (ax : lon_axis A) s, increasing (lon_points ax) ->
  (forall x, In x (lon_points ax) -> x < s) \/ (forall x, In x (lon_points ax) -> s + 360 <= x) ->
  set_longitude_range ax s = ax.
Proof. exact (@set_longitude_range_unchanged). Qed.
Print Assumptions C06_axis_outside_range_unchanged.

(** so C06 as stated is false: longitudes -170, -160 asked into [0, 360) stay where they are *)
Theorem C06_into_range_refuted : exists (ax : lon_axis nat) s,
  well_formed ax /\ increasing (lon_points ax) /\ spans_less_than_turn (lon_points ax)
  /\ ~ Forall (in_range s) (lon_points (set_longitude_range ax s)).
Proof.
  exists (mkAxis [-(170); -(160)] None [0; 1]%nat), 0. split; [split; reflexivity|].
  split; [repeat (constructor; simpl; try reflexivity)|].
  split; [intros x y Hx Hy; simpl in *; intuition (subst; reflexivity)|].
  simpl. intros H. inversion H as [|? ? [H1 _] _]. apply Qle_not_lt in H1. apply H1. reflexivity.
Qed.
Print Assumptions C06_into_range_refuted.
