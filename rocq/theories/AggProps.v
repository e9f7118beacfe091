(** C34, C35: the theorems. *)
From Coq Require Import String Reals Qreals.
From Verif Require Import Base PyStr QBase LonModel LonSpec DateModel IndexModel IndexSpec IndexProofs UngrModel UngrSpec SubsetModel SubsetSpec GridIndexModel GridIndexSpec ColModel AggModel AggSpec Agg5Proofs.
From Coq Require Import List Lqa.
Import ListNotations.
Open Scope string_scope. Open Scope list_scope. Open Scope Q_scope. Notation length := List.length.

(** ** Examples of data, and a kernel that counts *)
Definition a_coord (name axis : string) (p : list Q) : coord := mkCoord (Some (lit name)) [] (lit name) (lit axis) [length p] (map Some p).
Definition sample (lats lons : list Q) (v : list (option Q)) : udata := mkU [a_coord "latitude" "Y" lats; a_coord "longitude" "X" lons] [length v] v.
Definition number (vs : list Q) : list (option nat) := [Some (length vs)].
Definition reported (o : option (list (option nat))) : nat := match o with Some [Some n] => n | _ => 0%nat end.
Example number_counts : counts number reported.
Proof. split; reflexivity. Qed.
(** the kernel 'moments' counts too: its third output *)
Definition moments (vs : list Q) : list (option R) := let v := map Q2R vs in [Some (np_mean v); np_std v; Some (np_size v)].
Definition third (o : option (list (option R))) : nat := match o with Some [_; _; Some n] => Z.to_nat (Int_part n) | _ => 0%nat end.
Example moments_counts : counts moments third.
Proof. split; [reflexivity|]. intros vs _. unfold moments, third, np_size. rewrite map_length, Int_part_INR, Nat2Z.id. reflexivity. Qed.
Definition cells_of (out : aggregated (V := nat)) : list (list nat) := index_iterator (map size_of (ag_axes out)).
Definition reported_total (r : res (aggregated (V := nat))) : option nat := match r with Ok out => Some (total reported out (cells_of out)) | Raises _ => None end.
Definition run := aggregate number insertion_argsort.

(** ** C34 *)
Theorem C34_cells_partial : forall c r, upwards r -> exists a, partially_collapsed c r = Ok (Cells a) /\ cells_for c r a.
Proof. exact grid_cells. Qed.
Print Assumptions C34_cells_partial.
Example C34_cells_example : exists a, partially_collapsed (a_coord "longitude" "X" []) (mkReq 0 25 10) = Ok (Cells a) /\ map (fun b : Q * Q => (Qred (fst b), Qred (snd b))) (ax_bounds a) = [(0, 10); (10, 20); (20, 30)].
Proof. eexists. split; vm_compute; reflexivity. Qed.
Theorem C34_empty_range : forall c r, rq_stop r <= rq_start r -> 0 < rq_step r -> partially_collapsed c r = Raises ValueError.
Proof. exact empty_range. Qed.
Print Assumptions C34_empty_range.
Example C34_empty_range_example : partially_collapsed (a_coord "longitude" "X" []) (mkReq 10 10 5) = Raises ValueError.
Proof. reflexivity. Qed.
(** the full statement is: cells as wide as the step, covering the range.  A range narrower than the step gives a narrower cell whose point may lie
    outside of it; latitudes beyond the poles, and the pole itself, are not covered *)
Theorem C34_refuted :
  (exists c r a lo hi p, upwards r /\ partially_collapsed c r = Ok (Cells a) /\ ax_bounds a = [(lo, hi)] /\ ax_points a = [p] /\ ~ hi - lo == rq_step r /\ ~ lo <= p <= hi) /\
  (exists c r a, upwards r /\ partially_collapsed c r = Ok (Cells a) /\ (rq_start r <= 90 < rq_stop r) /\ forall k, ~ contains a k 90).
Proof.
  split.
  - exists (a_coord "longitude" "X" []), (mkReq 0 1 10). eexists. exists 0, 1. eexists. split; [split; reflexivity|]. split; [vm_compute; reflexivity|]. split; [reflexivity|]. split; [reflexivity|]. split; [vm_compute; discriminate|]. vm_compute. intros [_ H]. apply H. reflexivity.
  - exists (a_coord "latitude" "Y" []), (mkReq (-(91)) 91 2). destruct (partially_collapsed (a_coord "latitude" "Y" []) (mkReq (-(91)) 91 2)) as [[a|m]|e] eqn:E; vm_compute in E; try discriminate E. injection E as <-. eexists. split; [split; reflexivity|]. split; [reflexivity|]. split; [split; [discriminate|reflexivity]|].
    intros k (K & b & Hb & L & H). cbn [ax_bounds] in Hb. apply nth_error_In in Hb. revert H. revert Hb. generalize b. clear. intros b H. repeat (destruct H as [<-|H]; [vm_compute; discriminate|]). contradiction.
Qed.
Print Assumptions C34_refuted.

(** ** C35 *)
(** every cell holds the kernel of exactly the points in it, whatever order they are sorted into *)
Theorem C35_aggregation_partial : forall (V : Type) (kernel : list Q -> list (option V)) argsort, (forall l, is_argsort l (argsort l)) -> forall d gs rs,
  proper d -> all_located d -> rows d <> [] -> has_latitude d -> usual_longitudes d -> Forall2 (asks (u_coords d)) gs rs -> NoDup (map fst rs) -> Forall (fun kr => upwards (snd kr)) rs ->
  exists out, aggregate kernel argsort d gs = Ok out /\ standard_dims d (ag_dims out) /\ right_dimensions d rs out /\ right_values kernel d out.
Proof. exact @aggregate_spec. Qed.
Print Assumptions C35_aggregation_partial.
(** points without all their coordinates do not take part *)
Theorem C35_missing_coordinates : forall (V : Type) (kernel : list Q -> list (option V)) argsort d gs, proper d ->
  exists d', proper d' /\ all_located d' /\ rows d' = located_rows d /\ map identity_of (u_coords d') = map identity_of (u_coords d) /\ aggregate kernel argsort d gs = aggregate kernel argsort d' gs.
Proof. exact @Agg4Proofs.aggregate_missing. Qed.
Print Assumptions C35_missing_coordinates.
(** the counts of all cells add up to the number of unmasked points in some cell *)
Theorem C35_counted_partial : forall (V : Type) (kernel : list Q -> list (option V)) argsort, (forall l, is_argsort l (argsort l)) -> forall d gs rs count, counts kernel count ->
  proper d -> all_located d -> rows d <> [] -> has_latitude d -> usual_longitudes d -> Forall2 (asks (u_coords d)) gs rs -> NoDup (map fst rs) -> Forall (fun kr => upwards (snd kr)) rs ->
  exists out, aggregate kernel argsort d gs = Ok out /\ forall cells, every_cell out cells ->
    exists idxs, NoDup idxs /\ (forall i, In i idxs <-> unmasked d i /\ exists cell, a_cell out cell /\ point_in d out i cell) /\ total count out cells = length idxs.
Proof. exact @aggregate_counted. Qed.
Print Assumptions C35_counted_partial.
(** and to the number of unmasked points if these are in the requested ranges *)
Theorem C35_conservation_partial : forall (V : Type) (kernel : list Q -> list (option V)) argsort, (forall l, is_argsort l (argsort l)) -> forall d gs rs count, counts kernel count ->
  proper d -> all_located d -> rows d <> [] -> has_latitude d -> usual_longitudes d -> Forall2 (asks (u_coords d)) gs rs -> NoDup (map fst rs) -> Forall (fun kr => upwards (snd kr)) rs ->
  usual_ranges d rs -> (forall i, unmasked d i -> inside d rs i) ->
  exists out, aggregate kernel argsort d gs = Ok out /\ forall cells, every_cell out cells -> total count out cells = number_unmasked d.
Proof. exact @aggregate_conserves. Qed.
Print Assumptions C35_conservation_partial.
(** variables on the same coordinates are aggregated as one by one *)
Theorem C35_list : forall (V : Type) (kernel : list Q -> list (option V)) argsort d0 ds gs, aligned d0 -> (forall d, In d (d0 :: ds) -> same_coordinates d0 d) ->
  aggregate_list kernel argsort (d0 :: ds) gs = map_res (fun d => aggregate kernel argsort d gs) (d0 :: ds).
Proof. exact @list_separately. Qed.
Print Assumptions C35_list.

(** a case of all the hypotheses *)
Definition s1 := sample [1; 2; 13; 14] [5; 355; 5; 200] [Some 10; Some 20; None; Some 40].
Definition g1 := [mkSpec (lit "x") (Some 0) (Some 360) (Some 180); mkSpec (lit "latitude") None (Some 20) (Some 10)].
Definition r1 := [(1%nat, mkReq 0 360 180); (0%nat, mkReq 1 20 10)].
Ltac own := split; [repeat constructor; vm_compute; intuition discriminate|let i := fresh "i" in let j := fresh "j" in let a := fresh "a" in let b := fresh "b" in intros [|[|[|i]]] [|[|[|j]]] a b; cbn [nth_error u_coords sample]; intros Ha Hb; try discriminate Ha; try discriminate Hb; auto; injection Ha as <-; injection Hb as <-; intros E; vm_compute in E; discriminate E].
Example C35_hypotheses : counts number reported /\ (forall l, is_argsort l (insertion_argsort l)) /\ proper s1 /\ all_located s1 /\ rows s1 <> [] /\ has_latitude s1 /\ usual_longitudes s1 /\
  Forall2 (asks (u_coords s1)) g1 r1 /\ NoDup (map fst r1) /\ Forall (fun kr => upwards (snd kr)) r1 /\ usual_ranges s1 r1 /\ (forall i, unmasked s1 i -> inside s1 r1 i).
Proof.
  split; [exact number_counts|]. split; [exact insertion_argsort_ok|]. split; [split; [repeat constructor|split; [discriminate|own]]|]. split; [intros r Hr; vm_compute in Hr; decompose [or] Hr; subst; try reflexivity; contradiction|]. split; [discriminate|].
  split; [eexists; split; [left; reflexivity|reflexivity]|]. split. { intros c i x [<-|[<-|[]]] L; [discriminate L|]. destruct i as [|[|[|[|i]]]]; cbn; try discriminate; [intros [= <-]; lra ..|]. destruct i; discriminate. }
  split. { constructor; [|constructor; [|constructor]].
    - split; [|split; [reflexivity|]; eexists; split; [reflexivity|]; split; reflexivity]. apply (addr_axis _ _ _ (a_coord "longitude" "X" [5; 355; 5; 200]) (lit "longitude")); [reflexivity| |vm_compute; auto|reflexivity]. intros x [<-|[<-|[]]]; split; vm_compute; discriminate.
    - split; [eapply addr_name; reflexivity|]. split; [reflexivity|]. eexists. split; [reflexivity|]. split; [|reflexivity]. cbn [gs_start snd rq_start]. split; [exists 1; split; [left; reflexivity|reflexivity]|]. intros x Hx. cbn in Hx. decompose [or] Hx; try contradiction; match goal with H : Some _ = Some _ |- _ => injection H as <- end; vm_compute; discriminate. }
  split; [repeat constructor; cbn; intuition discriminate|]. split; [repeat constructor|].
  split. { intros k r c [[= <- <-]|[[= <- <-]|[]]]; cbn; intros [= <-]; split; intros H; try discriminate H; [left; split; vm_compute; discriminate|split; vm_compute; discriminate]. }
  intros i [Hi Hv] k r c x [[= <- <-]|[[= <- <-]|[]]]; cbn [u_coords s1 sample nth_error]; intros [= <-] Hx; cbn in Hi; split; intros L; try discriminate L; try (exfalso; apply L; reflexivity).
  - exists x. split; [exists 0%Z; ring|]. destruct i as [|[|[|[|i]]]]; cbn in Hx; try (injection Hx as <-; split; vm_compute; [discriminate|reflexivity]); exfalso; cbn in Hi; lia.
  - destruct i as [|[|[|[|i]]]]; cbn in Hx; try (injection Hx as <-; split; vm_compute; [discriminate|reflexivity]); exfalso; cbn in Hi; lia.
Qed.
Example C35_run : match run s1 g1 with Ok out => map (fun c => (c, reported (ag_value out c))) (cells_of out) | Raises _ => [] end = [([0; 0], 1); ([0; 1], 1); ([1; 0], 0); ([1; 1], 1)]%nat.
Proof. vm_compute. reflexivity. Qed.
Example cells_of_every : forall out, every_cell out (cells_of out).
Proof.
  intros out. destruct (index_iterator_spec (map size_of (ag_axes out))) as (I & N & _). split; auto. intros c. unfold cells_of. rewrite I. unfold a_cell, valid_index.
  clear. revert c. induction (ag_axes out) as [|g l IH]; intros c; cbn [map]; split; intros H; inversion H; subst; constructor; auto; apply IH; auto.
Qed.

(** what is missing: points in the requested range that are not counted, requests ignored or refused *)
Definition with_depth := mkU (u_coords s1 ++ [mkCoord None [] (lit "depth") [] [4%nat] [Some 1; Some 50; Some 2; Some 3]]) [4%nat] (u_values s1).
Theorem C35_refuted :
  (* longitudes -10..350: the grid is taken for -180..180, the point at 200 is lost *)
  (proper s1 /\ number_unmasked s1 = 3%nat /\ reported_total (run s1 [mkSpec (lit "x") (Some (-(10))) (Some 350) (Some 10)]) = Some 2%nat) /\
  (* a first cell from -1 to 9: its centre is not negative, so the point at -1/2 is looked for at 359.5 *)
  (reported_total (run (sample [0; 0] [-(1#2); 5] [Some 1; Some 1]) [mkSpec (lit "x") (Some (-(1))) (Some 20) (Some 10)]) = Some 1%nat) /\
  (* without a stop: the largest value is not in the last cell *)
  (reported_total (run (sample [0; 10; 20] [0; 0; 0] [Some 1; Some 1; Some 1]) [mkSpec (lit "y") None None (Some 10)]) = Some 2%nat) /\
  (* downwards: the points of the first cell are lost *)
  (reported_total (run (sample [1; 6] [0; 0] [Some 1; Some 1]) [mkSpec (lit "y") (Some 10) (Some 0) (Some (-(5)))]) = Some 1%nat) /\
  (* a grid for a coordinate without a standard name is ignored: the point at depth 50 is counted *)
  (proper with_depth /\ reported_total (run with_depth [mkSpec (lit "depth") (Some 0) (Some 10) (Some 5)]) = Some 3%nat) /\
  (* refused *)
  (run s1 [mkSpec (lit "height") (Some 0) (Some 10) (Some 5)] = Raises AttributeError) /\
  (run s1 [mkSpec (lit "x") (Some 0) (Some 10) None] = Raises ValueError) /\
  (run (mkU [a_coord "longitude" "X" [1]; a_coord "altitude" "Z" [2]] [1%nat] [Some 1]) [] = Raises AttributeError) /\
  (aggregate_list number insertion_argsort [] [] = Raises IndexError).
Proof.
  split; [split; [split; [repeat constructor|split; [discriminate|own]]|split; vm_compute; reflexivity]|]. split; [vm_compute; reflexivity|]. split; [vm_compute; reflexivity|]. split; [vm_compute; reflexivity|].
  split; [split; [|vm_compute; reflexivity]|repeat split; vm_compute; reflexivity].
  split; [repeat constructor|]. split; [discriminate|]. split; [repeat constructor; vm_compute; intuition discriminate|]. intros [|[|[|[|i]]]] [|[|[|[|j]]]] a b; cbn [nth_error u_coords with_depth s1 sample app]; intros Ha Hb; try discriminate Ha; try discriminate Hb; auto; injection Ha as <-; injection Hb as <-; intros E; vm_compute in E; discriminate E.
Qed.
Print Assumptions C35_refuted.
