(** C92: data frames. *)
From Verif Require Import Base PyStr QBase UngrModel UngrSpec FrModel FrSpec FrProofs Fr2Proofs.
Open Scope list_scope. Open Scope nat_scope.

(** The columns of the frame of data: one for the data, with the values of the rows whose coordinates are all there (C38); and one for each standard
    name of a coordinate that is not the index and has not the name of the data column: the last coordinate of that name. *)
Theorem C92_columns : forall ti u name dname d, aligned d ->
  exists d' f, post_process d = Ok d' /\ data_as_data_frame ti u name dname d = Ok f /\ rectangular f /\ f_rows f = length (located_rows d) /\ NoDup (names f) /\
    forall k v, In (k, v) (f_cols f) <-> (k = Some (column_name name dname) /\ v = u_values d') \/ (k <> Some (column_name name dname) /\ exists c, last_with k (column_coords ti d') c /\ v = c_points c).
Proof. exact frame_columns. Qed.
Print Assumptions C92_columns.
(** With distinct names: each row whose coordinates are all there, in order, with its time as the label (if asked for), its coordinates and its value. *)
Theorem C92_rows_partial : forall ti u name dname d, aligned d -> own_names ti (column_name name dname) d ->
  exists f, data_as_data_frame ti u name dname d = Ok f /\ rectangular f /\ names f = map c_std (column_coords ti d) ++ [Some (column_name name dname)] /\
    table f = map (data_row ti u d) (located_rows d).
Proof. exact frame_table. Qed.
Print Assumptions C92_rows_partial.
Definition ex_c (n : option str) (p : list (option Q)) : coord := mkCoord n [] [] [] [length p] p.
Definition ex_d : udata := mkU [ex_c (Some (lit "time")) [Some 1%Q; Some 2%Q; Some 3%Q]; ex_c (Some (lit "latitude")) [Some 10%Q; None; Some 30%Q]; ex_c None [Some 5%Q; Some 6%Q; Some 7%Q]] [3] [Some 100%Q; Some 200%Q; None].
Example C92_rows_example : aligned ex_d /\ own_names true (lit "aod") ex_d /\
  exists f, data_as_data_frame true (UnitSince 1000 2) None (lit "aod") ex_d = Ok f /\ names f = [Some (lit "latitude"); None; Some (lit "aod")] /\
    Forall2 (fun r e => match fst r, fst e with Some (Some a), Some (Some b) => (a == b)%Q | _, _ => False end /\ snd r = snd e) (table f) [(Some (Some 1002%Q), [Some 10%Q; Some 5%Q; Some 100%Q]); (Some (Some 1006%Q), [Some 30%Q; Some 7%Q; None])].
Proof.
  split; [repeat constructor|]. split.
  - split; [repeat (constructor; [cbn; intros H; repeat (destruct H as [H|H]; [discriminate|]); exact H|]); constructor|]. intros c [<-|[<-|[]]]; cbn; discriminate.
  - eexists. split; [vm_compute; reflexivity|]. split; [reflexivity|]. repeat constructor.
Qed.
(** The frames in which collocation looks for points: of the samples all rows whose coordinates are there, of the data those of them that have a value. *)
Theorem C92_collocation_partial : forall u dname d, aligned d -> own_names false (lit "vals") d ->
  exists fs fd, sample_frame u dname d = Ok fs /\ data_points_frame u dname d = Ok fd /\
    names fs = map c_std (u_coords d) ++ [Some (lit "vals")] /\ names fd = names fs /\
    table fs = map (data_row false u d) (located_rows d) /\
    table fd = map (data_row false u d) (filter (fun i => match nth i (u_values d) None with Some _ => true | None => false end) (located_rows d)).
Proof. exact collocation_frames. Qed.
Print Assumptions C92_collocation_partial.
Example C92_collocation_example : own_names false (lit "vals") ex_d /\ exists fs fd, sample_frame OtherUnits (lit "aod") ex_d = Ok fs /\ data_points_frame OtherUnits (lit "aod") ex_d = Ok fd /\
  map snd (table fs) = [[Some 1%Q; Some 10%Q; Some 5%Q; Some 100%Q]; [Some 3%Q; Some 30%Q; Some 7%Q; None]] /\ map snd (table fd) = [[Some 1%Q; Some 10%Q; Some 5%Q; Some 100%Q]].
Proof.
  split; [split; [repeat (constructor; [cbn; intros H; repeat (destruct H as [H|H]; [discriminate|]); exact H|]); constructor|intros c [<-|[<-|[<-|[]]]]; cbn; discriminate]|].
  eexists. eexists. split; [vm_compute; reflexivity|]. split; [vm_compute; reflexivity|]. split; reflexivity.
Qed.
(** Dropping rows with a missing value keeps the others in order. *)
Theorem C92_dropna : forall f, f_cols f <> [] -> rectangular f -> names (dropna f) = names f /\ rectangular (dropna f) /\
  table (dropna f) = filter (fun r : option (option Q) * list (option Q) => forallb (fun o => negb (is_missing o)) (snd r)) (table f).
Proof. exact dropna_table. Qed.
Print Assumptions C92_dropna.
(** Coordinates without data *)
Theorem C92_coordinates_partial : forall ti u cs c0, In c0 cs -> Forall (fun c => length (c_points c) = length (c_points c0)) cs -> NoDup (map c_std cs) -> (exists c, In c cs /\ labels ti c = false) ->
  let d := mkU cs [] (repeat None (length (c_points c0))) in
  exists f, coordinates_as_data_frame ti u cs = Ok f /\ names f = map c_std (column_coords ti d) /\
    table f = map (fun i => (label_of ti u d i, map (fun c => nth i (c_points c) None) (column_coords ti d))) (located_rows d).
Proof. exact coordinates_frame. Qed.
Print Assumptions C92_coordinates_partial.
Example C92_coordinates_example : NoDup (map c_std (u_coords ex_d)) /\ exists f, coordinates_as_data_frame true OtherUnits (u_coords ex_d) = Ok f /\
  table f = [(Some (Some 1%Q), [Some 10%Q; Some 5%Q]); (Some (Some 3%Q), [Some 30%Q; Some 7%Q])].
Proof. split; [apply C92_collocation_example|]. eexists. split; vm_compute; reflexivity. Qed.

(** ** Lists *)
(** Data with distinct names and the same number of located rows: the frame of the first, and a column for each of the others *)
Theorem C92_list_partial : forall u n d l, aligned d -> Forall (fun nd : str * udata => aligned (snd nd) /\ length (located_rows (snd nd)) = length (located_rows d)) l ->
  own_names true n d -> NoDup (map fst ((n, d) :: l)) -> (forall nd c, In nd l -> In c (column_coords true d) -> c_std c <> Some (fst nd)) ->
  exists f, list_as_data_frame u ((n, d) :: l) = Ok f /\ names f = map c_std (column_coords true d) ++ map (fun nd : str * udata => Some (fst nd)) ((n, d) :: l) /\
    table f = map (fun j => let r := data_row true u d (nth j (located_rows d) 0) in (fst r, snd r ++ map (fun nd : str * udata => nth (nth j (located_rows (snd nd)) 0) (u_values (snd nd)) None) l)) (seq 0 (length (located_rows d))).
Proof. exact list_frame. Qed.
Print Assumptions C92_list_partial.
Theorem C92_list_lengths : forall u n d m e l, aligned d -> aligned e -> located_rows d <> [] -> length (located_rows e) <> length (located_rows d) -> list_as_data_frame u ((n, d) :: (m, e) :: l) = Raises ValueError.
Proof. exact list_lengths. Qed.
Print Assumptions C92_list_lengths.
Definition ex_one (la v : Q) : udata := mkU [ex_c (Some (lit "latitude")) [Some la]] [1] [Some v].
Example C92_list_example : exists f, list_as_data_frame OtherUnits [(lit "a", ex_one 10 1); (lit "b", ex_one 10 2)] = Ok f /\ names f = [Some (lit "latitude"); Some (lit "a"); Some (lit "b")] /\ table f = [(None, [Some 10%Q; Some 1%Q; Some 2%Q])].
Proof. eexists. split; [vm_compute; reflexivity|]. split; reflexivity. Qed.
Example C92_list_lengths_example : list_as_data_frame OtherUnits [(lit "a", ex_one 10 1); (lit "b", ex_d)] = Raises ValueError.
Proof. vm_compute. reflexivity. Qed.

(** ** What is lost without distinct names *)
(** Two coordinates without a standard name: the first is lost.  Data named like a coordinate: the coordinate is lost.  Data of the same name in a
    list: the first are lost.  Data of a list at other places: their values stand beside the coordinates of the first. *)
Theorem C92_refuted :
  (exists f, data_as_data_frame true OtherUnits None (lit "a") (mkU [ex_c None [Some 1%Q]; ex_c None [Some 2%Q]] [1] [Some 3%Q]) = Ok f /\ f_cols f = [(None, [Some 2%Q]); (Some (lit "a"), [Some 3%Q])]) /\
  (exists f, data_as_data_frame true OtherUnits None (lit "latitude") (ex_one 10 1) = Ok f /\ f_cols f = [(Some (lit "latitude"), [Some 1%Q])]) /\
  (exists f, list_as_data_frame OtherUnits [(lit "a", ex_one 10 1); (lit "a", ex_one 10 2)] = Ok f /\ f_cols f = [(Some (lit "latitude"), [Some 10%Q]); (Some (lit "a"), [Some 2%Q])]) /\
  (exists f, list_as_data_frame OtherUnits [(lit "a", ex_one 10 1); (lit "b", ex_one 77 2)] = Ok f /\ f_cols f = [(Some (lit "latitude"), [Some 10%Q]); (Some (lit "a"), [Some 1%Q]); (Some (lit "b"), [Some 2%Q])]).
Proof. repeat split; eexists; (split; [vm_compute; reflexivity|reflexivity]). Qed.
Print Assumptions C92_refuted.
