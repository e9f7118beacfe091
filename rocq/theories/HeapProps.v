(** C39 A copy shares nothing with its original; C59 A copy or slice looks like what was copied or selected; C60 data_flattened is data, flattened. *)
From Coq Require Import String.
From Verif Require Import Base PyStr QBase LonModel HeapModel HeapSpec HeapProofs Heap2Proofs Heap3Proofs Heap4Proofs Heap6Proofs Heap5Proofs.
From Coq Require Import List Lia Arith.
Import ListNotations.
Open Scope string_scope. Open Scope list_scope. Open Scope nat_scope. Notation length := List.length.

(** ** Three values at three points *)
Definition at_q (q : Q) : cell := mkCell false (Some q).
Definition gone : cell := mkCell true None.
Definition lazy_parts (n : nat) (cells : list cell) (m : loc -> meta) : heap := [OBuf cells; OArr [length cells] n (seq 0 (length cells)); ODict []; OMeta (m (n + 2)); ODict []].
Definition meta_of (name : str) (std : option str) (units : str) (l : loc) : meta := mkMeta name std [] [] units [] [] l.
Definition three (lat lon : list cell) (std1 std2 : option str) : heap :=
  lazy_parts 0 [at_q 1; at_q 2; gone] (meta_of (lit "v") (Some []) (lit "1")) ++
  lazy_parts 5 lat (meta_of (lit "lat") std1 (lit "deg")) ++ [OCoord 6 None 8 (lit "Y") 9] ++
  lazy_parts 11 lon (meta_of (lit "lon") std2 (lit "degrees")) ++ [OCoord 12 None 14 (lit "X") 15] ++ [OList [10; 16]; OData 1 None 3 17 4].
Definition lat := Some (lit "latitude"). Definition lon := Some (lit "longitude").
Definition there := [at_q 10; at_q 20; at_q 30].
Definition h0 : heap := three there [at_q 100; at_q 200; at_q 300] lat lon.
Lemma no_dangling_check h : forallb (fun o => forallb (fun r => r <? length h) (refs o)) h = true -> no_dangling h.
Proof. intros H l o r E I. rewrite forallb_forall in H. apply nth_error_In in E. specialize (H o E). rewrite forallb_forall in H. apply Nat.ltb_lt, H, I. Qed.
Lemma h0_ok : no_dangling h0. Proof. apply no_dangling_check. vm_compute. reflexivity. Qed.

Ltac apply_nodup := repeat first [apply NoDup_nil|apply NoDup_cons; [cbn; intuition discriminate|]].

(** ** C39 *)
(** A copy, a slice, copies of coordinates and of lists of data share nothing with anything there was before. *)
Theorem C39_copy : forall d, fresh_from d (data_copy None d).
Proof. exact data_copy_fresh. Qed.
Print Assumptions C39_copy.
Theorem C39_slice : forall k d, fresh_from d (data_getitem k d).
Proof. exact data_getitem_fresh. Qed.
Print Assumptions C39_slice.
Theorem C39_coord : forall c k, fresh_from c (coord_copy c) /\ fresh_from c (coord_getitem k c) /\ fresh_from c (coordlist_copy c).
Proof. intros c k. split; [|split]; apply fresh_by_acts; intros S; [apply acts_coord_copy|apply acts_coord_getitem|apply acts_coordlist_copy]. Qed.
Print Assumptions C39_coord.
Theorem C39_list : forall d, fresh_from d (datalist_copy d).
Proof. exact datalist_copy_fresh. Qed.
Print Assumptions C39_list.
(** Objects that share nothing stay so, and an edit by way of one is not seen in the other, after any history of edits by way of either. *)
Theorem C39_history : forall a b h h1, no_dangling h -> a < length h -> b < length h -> separate h a b -> history a b h h1 ->
  no_dangling h1 /\ length h <= length h1 /\ separate h1 a b /\
  (forall h2, edit a h1 h2 -> looks_the_same h1 h2 b) /\ (forall h2, edit b h1 h2 -> looks_the_same h1 h2 a).
Proof. exact history_separate. Qed.
Print Assumptions C39_history.
(** Any sequence of calls on data or its coordinates is such an edit. *)
Theorem C39_calls : forall os d h h', no_dangling h -> d < length h -> run os d h = Ok (tt, h') -> edit d h h'.
Proof. exact run_edit. Qed.
Print Assumptions C39_calls.
(** Together: after copying (or slicing), and any history, calls on the one are not seen in the other. *)
Theorem C39_independent : forall d k h c h0 h1, no_dangling h -> d < length h ->
  data_copy None d h = Ok (c, h0) \/ data_getitem k d h = Ok (c, h0) -> history d c h0 h1 ->
  (forall os h2, run os d h1 = Ok (tt, h2) -> looks_the_same h1 h2 c) /\ (forall os h2, run os c h1 = Ok (tt, h2) -> looks_the_same h1 h2 d).
Proof. intros d k h c h0 h1 W B [E|E] H; [exact (independent _ d h c h0 h1 (data_copy_fresh d) W B E H)|exact (independent _ d h c h0 h1 (data_getitem_fresh k d) W B E H)]. Qed.
Print Assumptions C39_independent.
(** copy(data) with an array of the caller's shares that array, and nothing else. *)
Theorem C39_copy_with_data : forall x d h c h' s b i cells, no_dangling h -> d < length h -> nth_error h x = Some (OArr s b i) -> nth_error h b = Some (OBuf cells) ->
  data_copy (Some x) d h = Ok (c, h') -> copy_shares x d h c h'.
Proof. exact data_copy_with_shares. Qed.
Print Assumptions C39_copy_with_data.

(** Copying, slicing, and then a change of the copy: values, longitudes, units. *)
Definition view_or_not {A} (r : res (A * heap)) (see : A -> heap -> bool) : bool := match r with Ok (a, h) => see a h | Raises _ => false end.
Example C39_case_copy : exists c h1 h2 v, no_dangling h0 /\ data_copy None 18 h0 = Ok (c, h1) /\
  run [SetPoint Whole 0 (at_q 7); SetPoint (Coordinate 0) 1 (at_q 8); SetUnits Whole (lit "K"); SetLongitudeRange 1 (-180); AddAttribute Whole (lit "a") (lit "b")] c h1 = Ok (tt, h2) /\
  see_data h1 18 = Some v /\ see_data h2 18 = Some v /\ see_data h2 c <> see_data h1 c.
Proof.
  destruct (data_copy None 18 h0) as [[c h1]|] eqn:E1; vm_compute in E1; [|discriminate]. exists c, h1. injection E1 as <- <-. eexists. eexists. split; [apply h0_ok|]. split; [reflexivity|]. split; [vm_compute; reflexivity|]. split; [vm_compute; reflexivity|]. split; [vm_compute; reflexivity|]. vm_compute. discriminate.
Qed.
Example C39_case_slice : exists c h1, data_getitem (mkKeys [2] [2; 0]) 18 h0 = Ok (c, h1) /\ c < length h1.
Proof. destruct (data_getitem (mkKeys [2] [2; 0]) 18 h0) as [[c h1]|] eqn:E1; vm_compute in E1; [|discriminate]. exists c, h1. injection E1 as <- <-. split; [reflexivity|]. vm_compute. lia. Qed.
(** By contrast: data made with the same coordinates shares them, so a change of a coordinate point of the one is a change of the other; flattened or not. *)
Example C39_case_same_coordinates : forall flatten, exists c h1 h2 v w, make_new 1 (lit "w") flatten 18 h0 = Ok (c, h1) /\ run [SetPoint (Coordinate 0) 1 (at_q 8)] c h1 = Ok (tt, h2) /\
  see_data h1 18 = Some v /\ see_data h2 18 = Some w /\ v <> w /\ ~ separate h1 18 c.
Proof.
  intros [|].
  - destruct (make_new 1 (lit "w") true 18 h0) as [[c h1]|] eqn:E1; vm_compute in E1; [|discriminate]. exists c, h1. injection E1 as <- <-. eexists. eexists. eexists. split; [reflexivity|]. split; [vm_compute; reflexivity|]. split; [vm_compute; reflexivity|]. split; [vm_compute; reflexivity|]. split; [discriminate|]. intros S. apply (S 8).
    + eapply reach_step; [vm_compute; reflexivity|right; right; left; reflexivity|]. eapply reach_step; [vm_compute; reflexivity|left; reflexivity|]. eapply reach_step; [vm_compute; reflexivity|right; left; reflexivity|constructor].
    + eapply reach_step; [vm_compute; reflexivity|right; right; left; reflexivity|]. eapply reach_step; [vm_compute; reflexivity|left; reflexivity|]. eapply reach_step; [vm_compute; reflexivity|right; left; reflexivity|constructor].
  - destruct (make_new 1 (lit "w") false 18 h0) as [[c h1]|] eqn:E1; vm_compute in E1; [|discriminate]. exists c, h1. injection E1 as <- <-. eexists. eexists. eexists. split; [reflexivity|]. split; [vm_compute; reflexivity|]. split; [vm_compute; reflexivity|]. split; [vm_compute; reflexivity|]. split; [discriminate|]. intros S. apply (S 1).
    + eapply reach_step; [vm_compute; reflexivity|left; reflexivity|constructor].
    + eapply reach_step; [vm_compute; reflexivity|left; reflexivity|constructor].
Qed.

(** ** C59 *)
(** A copy has the same values, coordinates, metadata (units spelled as the constructors do, shape and range brought up to date), and no attributes; the
    original keeps all it had, but for its shape and range in the metadata. *)
Theorem C59_copy_partial : forall h d v, see_data h d = Some v -> all_there v -> own_metadata h d -> own_std_names (snd v) ->
  exists c h', data_copy None d h = Ok (c, h') /\ see_data h' d = Some (refreshed (fst v), map refreshed_coord (snd v)) /\ see_data h' c = Some (made_from (fun x => x) v).
Proof. exact data_copy_looks. Qed.
Print Assumptions C59_copy_partial.
(** Data as the constructors leave it, without attributes: the copy looks the same in everything. *)
Theorem C59_equal_partial : forall h d v, see_data h d = Some v -> all_there v -> own_metadata h d -> own_std_names (snd v) -> settled v ->
  exists c h', data_copy None d h = Ok (c, h') /\ see_data h' d = Some v /\ see_data h' c = Some v.
Proof. exact data_copy_equal. Qed.
Print Assumptions C59_equal_partial.
(** A slice has the values and the coordinates at the selected positions, all in the same order. *)
Theorem C59_slice_partial : forall k h d v, see_data h d = Some v -> all_there v -> own_metadata h d -> k_shape k <> [] -> Forall (fun i => i < length (snd (v_data (fst v)))) (k_positions k) ->
  exists c h', data_getitem k d h = Ok (c, h') /\ see_data h' d = Some (refreshed (fst v), map refreshed_coord (snd v)) /\ see_data h' c = Some (made_from (selected k) v).
Proof. exact data_getitem_looks. Qed.
Print Assumptions C59_slice_partial.
(** the range that is brought up to date is the range of the values *)
Theorem C59_range : forall cells, is_range cells (range_of cells).
Proof. exact range_is_range. Qed.
Print Assumptions C59_range.
Example C59_case_range : is_range [at_q 3; gone; at_q 1; at_q 2] [Some 1%Q; Some 3%Q].
Proof. exact (range_is_range [at_q 3; gone; at_q 1; at_q 2]). Qed.
(** If coordinate values are missing, coords() leaves the values and the points of all coordinates at the positions where no coordinate value is missing, in order, and
    brings shape and range up to date; attributes and the axes are kept. *)
Theorem C38_objects : forall h d v ps, see_data h d = Some v -> one_point_each v -> own_metadata h d -> to_keep v ps -> length ps <> length (snd (v_data (fst v))) ->
  exists cl h' w, coords d h = Ok (cl, h') /\ see_data h' d = Some w /\ cleaned ps v w.
Proof. intros h d v ps E O M K N. destruct (coords_reduce h d v ps E O M K N) as (cl & h1 & w & R1 & R2 & R3 & _). exists cl, h1, w. auto. Qed.
Print Assumptions C38_objects.
(** and a slice of such data is a slice of what is left. *)
Theorem C59_slice_of_rest : forall k h d v ps, see_data h d = Some v -> one_point_each v -> own_metadata h d -> to_keep v ps -> length ps <> length (snd (v_data (fst v))) ->
  k_shape k <> [] -> Forall (fun i => i < length ps) (k_positions k) ->
  exists c h' w, data_getitem k d h = Ok (c, h') /\ see_data h' d = Some w /\ cleaned ps v w /\ see_data h' c = Some (made_from (selected k) w).
Proof. exact data_getitem_reduces. Qed.
Print Assumptions C59_slice_of_rest.
Example C38_case_objects : exists v, see_data (three there [at_q 1; gone; at_q 2] lat lon) 18 = Some v /\ one_point_each v /\ own_metadata (three there [at_q 1; gone; at_q 2] lat lon) 18 /\ to_keep v [0; 2] /\
  exists c h' w, data_getitem (mkKeys [1] [1]) 18 (three there [at_q 1; gone; at_q 2] lat lon) = Ok (c, h') /\ see_data h' c = Some w /\ map (fun c => snd (v_data (fst c))) (snd w) = [[at_q 30]; [at_q 2]].
Proof.
  eexists. split; [vm_compute; reflexivity|]. split; [repeat constructor|]. split; [vm_compute; apply_nodup|]. split; [|do 3 eexists; split; [vm_compute; reflexivity|split; vm_compute; reflexivity]].
  split; [repeat constructor|]. intros i. split.
  - intros [<-|[<-|[]]]; (split; [cbn; lia|]); repeat constructor; eexists; (split; [reflexivity|split; discriminate || reflexivity]).
  - intros [L U]. cbn in L. destruct i as [|[|[|i]]]; [left; auto| |right; left; auto|lia]. exfalso. apply Forall_cons_iff in U. destruct U as [_ U]. apply Forall_cons_iff in U. destruct U as [(x & E & H1 & H2) _]. cbn in E. injection E as <-. apply H2 || discriminate H1; reflexivity.
Qed.
(** Without these conditions it fails: attributes are lost; with two coordinates that have no standard name a copy is refused; and so it is once a coordinate
    value has become missing (the values are copied before the points are taken out). *)
Theorem C59_refuted :
  (exists h d v c h', see_data h d = Some v /\ all_there v /\ own_metadata h d /\ own_std_names (snd v) /\ v_attrs (fst v) <> [] /\ data_copy None d h = Ok (c, h') /\ exists w, see_data h' c = Some w /\ v_attrs (fst w) = []) /\
  (exists h d v, see_data h d = Some v /\ all_there v /\ own_metadata h d /\ data_copy None d h = Raises DuplicateCoordinateError) /\
  (exists h d v, see_data h d = Some v /\ own_metadata h d /\ own_std_names (snd v) /\ data_copy None d h = Raises ValueError /\ exists c h', data_getitem (mkKeys [1] [0]) d h = Ok (c, h')).
Proof.
  assert (U : forall a b, v_std (v_md (fst a)) <> v_std (v_md (fst b)) -> own_std_names [a; b]).
  { intros a b N [|[|i]] [|[|j]] x y Ex Ey E _; cbn in Ex, Ey; try reflexivity; try (injection Ex as <-); try (injection Ey as <-); try congruence; try (destruct i; discriminate); try (destruct j; discriminate). }
  split; [|split].
  - destruct (run [AddAttribute Whole (lit "source") (lit "x")] 18 h0) as [[[] h1]|] eqn:E1; vm_compute in E1; [|discriminate]. exists h1. injection E1 as <-. exists 18. eexists. eexists. eexists. split; [vm_compute; reflexivity|]. split; [repeat constructor; discriminate|].
    split; [vm_compute; apply_nodup|]. split; [apply U; discriminate|]. split; [discriminate|]. split; [vm_compute; reflexivity|]. eexists. split; vm_compute; reflexivity.
  - exists (three there there None None), 18. eexists. split; [vm_compute; reflexivity|]. split; [repeat constructor; discriminate|]. split; [vm_compute; apply_nodup|]. vm_compute. reflexivity.
  - exists (three there [at_q 1; gone; at_q 2] lat lon), 18. eexists. split; [vm_compute; reflexivity|]. split; [vm_compute; apply_nodup|]. split; [apply U; discriminate|]. split; [vm_compute; reflexivity|]. eexists. eexists. vm_compute. reflexivity.
Qed.
Print Assumptions C59_refuted.
(** The conditions are met by data with coordinates named latitude and longitude. *)
Lemma h0_view : exists v, see_data h0 18 = Some v /\ all_there v /\ own_metadata h0 18 /\ own_std_names (snd v) /\ v_data (fst v) = ([3], [at_q 1; at_q 2; gone]).
Proof.
  eexists. split; [vm_compute; reflexivity|]. split; [repeat constructor; discriminate|]. split; [vm_compute; apply_nodup|]. split; [|reflexivity].
  intros [|[|i]] [|[|j]] x y Ex Ey E _; cbn in Ex, Ey; try reflexivity; try (injection Ex as <-); try (injection Ey as <-); try discriminate; try (destruct i; discriminate); try (destruct j; discriminate).
Qed.
Example C59_case_copy : exists c h' w, data_copy None 18 h0 = Ok (c, h') /\ see_data h' c = Some w /\ v_data (fst w) = ([3], [at_q 1; at_q 2; gone]) /\
  map (fun c => (snd (v_data (fst c)), v_units (v_md (fst c)), snd c)) (snd w) = [(there, lit "degrees", lit "Y"); ([at_q 100; at_q 200; at_q 300], lit "degrees", lit "X")].
Proof.
  destruct h0_view as (v & Ev & A & O & U & D). destruct (C59_copy_partial h0 18 v Ev A O U) as (c & h' & E1 & _ & E2). exists c, h', (made_from (fun x => x) v). split; auto. split; auto. vm_compute in Ev. injection Ev as <-. split; vm_compute; reflexivity.
Qed.
Example C59_case_slice : exists c h' w, data_getitem (mkKeys [2] [2; 0]) 18 h0 = Ok (c, h') /\ see_data h' c = Some w /\ v_data (fst w) = ([2], [gone; at_q 1]) /\ map (fun c => snd (v_data (fst c))) (snd w) = [[at_q 30; at_q 10]; [at_q 300; at_q 100]].
Proof.
  destruct h0_view as (v & Ev & A & O & U & D). destruct (C59_slice_partial (mkKeys [2] [2; 0]) h0 18 v Ev A O) as (c & h' & E1 & _ & E2); [discriminate|rewrite D; repeat constructor|]. exists c, h', (made_from (selected (mkKeys [2] [2; 0])) v). split; auto. split; auto. vm_compute in Ev. injection Ev as <-. split; vm_compute; reflexivity.
Qed.
(** a copy of a copy looks like the copy *)
Example C59_case_equal : exists c h1 v c' h2, data_copy None 18 h0 = Ok (c, h1) /\ see_data h1 c = Some v /\ settled v /\ data_copy None c h1 = Ok (c', h2) /\ see_data h2 c' = Some v.
Proof.
  destruct (data_copy None 18 h0) as [[c h1]|] eqn:E1; vm_compute in E1; [|discriminate]. injection E1 as <- <-. eexists. eexists. eexists. eexists. eexists. split; [reflexivity|]. split; [vm_compute; reflexivity|]. split; [repeat constructor|]. split; vm_compute; reflexivity.
Qed.

(** ** C60 *)
(** As long as arrays lie in memory in order and coords() is not called with missing coordinate values after data_flattened was asked for: data_flattened of
    data and of its coordinates is data, flattened, after any sequence of calls. *)
Theorem C60_partial : forall os d h h' v, in_order h -> flats_are_views h -> coords_in_time os d h -> run os d h = Ok (tt, h') -> see_data h' d = Some v ->
  flat_right (fst v) /\ Forall (fun c => flat_right (fst c)) (snd v).
Proof. exact flat_after. Qed.
Print Assumptions C60_partial.
(** Otherwise it does not hold: points are taken out of data and coordinates by coords() but not of data_flattened; and of data that is not in order in memory
    data_flattened is a copy that does not follow the changes. *)
Theorem C60_refuted :
  (exists h d os h' v, in_order h /\ flats_are_views h /\ run os d h = Ok (tt, h') /\ see_data h' d = Some v /\
    length (snd (v_flat (fst v))) = 3 /\ length (snd (v_data (fst v))) = 2 /\ Forall (fun c => flat_right (fst c) /\ length (snd (v_flat (fst c))) = 2) (snd v)) /\
  (exists h d os h' v, flats_are_views h /\ ~ In Coords os /\ run os d h = Ok (tt, h') /\ see_data h' d = Some v /\ ~ flat_right (fst v)).
Proof.
  assert (V : forall lat lon s t, flats_are_views (three lat lon s t)).
  { intros la lo s t l o a f md at_ ax cl E H. exfalso. do 19 (destruct l as [|l]; [cbn in E; injection E as <-; destruct H as [H|H]; discriminate H|]). cbn in E. destruct l; discriminate. }
  split.
  - exists (three there [at_q 1; gone; at_q 2] lat lon), 18, [Flatten Whole; Flatten (Coordinate 0); Coords]. eexists. eexists. split; [|split; [apply V|split; [vm_compute; reflexivity|split; [vm_compute; reflexivity|split; [reflexivity|split; [reflexivity|repeat constructor]]]]]].
    intros l s b i E. do 19 (destruct l as [|l]; [cbn in E; first [discriminate E|injection E as _ _ <-; reflexivity]|]). cbn in E. destruct l; discriminate.
  - exists (set_nth 1 (OArr [3] 0 [2; 1; 0]) h0), 18, [Flatten Whole; SetPoint Whole 0 (at_q 7)]. eexists. eexists. split; [|split; [intros [X|[X|[]]]; discriminate X|split; [vm_compute; reflexivity|split; [vm_compute; reflexivity|discriminate]]]].
    intros l o a f md at_ ax cl E H. exfalso. do 19 (destruct l as [|l]; [cbn in E; injection E as <-; destruct H as [H|H]; discriminate H|]). cbn in E. destruct l; discriminate.
Qed.
Print Assumptions C60_refuted.
Definition some_calls : list call := [Flatten Whole; SetPoint Whole 0 (at_q 7); Coords; SetLongitudeRange 1 0; Flatten (Coordinate 1); SetPoint (Coordinate 1) 2 (at_q 5)].
Example C60_case : in_order h0 /\ flats_are_views h0 /\ coords_in_time some_calls 18 h0 /\ exists h' v, run some_calls 18 h0 = Ok (tt, h') /\ see_data h' 18 = Some v /\
  v_flat (fst v) = ([3], [at_q 7; at_q 2; gone]) /\ flat_right (fst v).
Proof.
  split; [|split; [|split]].
  - intros l s b i Ex. do 19 (destruct l as [|l]; [cbn in Ex; first [discriminate Ex|injection Ex as _ _ <-; reflexivity]|]). cbn in Ex. destruct l; discriminate.
  - intros l o a f md at_ ax cl Ex H. exfalso. do 19 (destruct l as [|l]; [cbn in Ex; injection Ex as <-; destruct H as [H|H]; discriminate H|]). cbn in Ex. destruct l; discriminate.
  - intros os1 os2 h1 Eo R. unfold some_calls in Eo. right. do 2 (destruct os1 as [|? os1]; [discriminate Eo|injection Eo as <- Eo]). destruct os1 as [|? os1].
    + vm_compute in R. injection R as <-. eexists. split; [vm_compute; reflexivity|]. repeat constructor; discriminate.
    + exfalso. injection Eo as <- Eo. do 3 (destruct os1 as [|? os1]; [discriminate Eo|injection Eo as <- Eo]). destruct os1; discriminate Eo.
  - eexists. eexists. split; [vm_compute; reflexivity|]. split; [vm_compute; reflexivity|]. split; reflexivity.
Qed.
