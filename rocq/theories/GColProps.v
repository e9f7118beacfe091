(** C68: the theorems. *)
From Coq Require Import String.
From Verif Require Import Base PyStr QBase LonModel LonSpec DateModel IndexModel UngrModel UngrSpec SubsetModel SubsetSpec GridIndexModel GridIndexSpec AggModel AggSpec Agg5Proofs GColModel GColSpec GCol3Proofs.
From Coq Require Import List Lqa Lia.
Import ListNotations.
Open Scope string_scope. Open Scope list_scope. Open Scope nat_scope. Notation length := List.length.

(** Every cell of the result has the kernel of exactly the data in it; the dimensions are those shared with the data, in the order of the sample.
    Partial: for samples stored upwards, longitudes compared in the sample's convention. *)
Theorem C68_bin_partial : forall (V : Type) argsort, (forall l, is_argsort l (argsort l)) -> forall (k : list Q -> res (list (option V))) how mdfms sample d,
  bin_of how -> aligned d -> complete d -> unique_standard_names (u_coords d) -> usual_longitudes d -> has_latitude d -> 2 <= length (u_coords d) -> u_values d <> [] ->
  good_sample sample -> upward_sample sample -> (mdfms = true -> all_shared sample d) -> only_value_error k ->
  exists out, sampled_from argsort how (OnValues k) mdfms sample d = Ok out /\ sample_dims sample d (gc_dims out) /\
    Forall2 (fun ci a => exists s, nth_error (cu_dims sample) ci = Some s /\ cells_of s a) (gc_dims out) (gc_axes out) /\ right_cells every k mdfms sample d out.
Proof. exact @sampled_bin. Qed.
Print Assumptions C68_bin_partial.
(** in either direction: all but the first cells of a dimension stored downwards *)
Theorem C68_exact : forall (V : Type) argsort, (forall l, is_argsort l (argsort l)) -> forall (k : list Q -> res (list (option V))) how mdfms sample d,
  bin_of how -> aligned d -> complete d -> unique_standard_names (u_coords d) -> usual_longitudes d -> has_latitude d -> 2 <= length (u_coords d) -> u_values d <> [] ->
  good_sample sample -> (mdfms = true -> all_shared sample d) -> only_value_error k ->
  exists out, sampled_from argsort how (OnValues k) mdfms sample d = Ok out /\ sample_dims sample d (gc_dims out) /\
    Forall2 (fun ci a => exists s, nth_error (cu_dims sample) ci = Some s /\ cells_of s a) (gc_dims out) (gc_axes out) /\ right_cells not_first_down k mdfms sample d out.
Proof. exact @sampled_exact. Qed.
Print Assumptions C68_exact.
(** data without a position are left out, the others are used as if they were all *)
Theorem C68_missing : forall (V : Type) argsort (k : kernel (V := V)) how mdfms sample d, aligned d -> exists d', aligned d' /\ rows d' = filter located (rows d) /\ map identity_of (u_coords d') = map identity_of (u_coords d) /\
  sampled_from argsort how k mdfms sample d = sampled_from argsort how k mdfms sample d'.
Proof. exact @sampled_missing. Qed.
Print Assumptions C68_missing.
(** a list of variables: each as if alone *)
Theorem C68_list : forall (V : Type) argsort (k : kernel (V := V)) how mdfms sample ds, ds <> [] -> sampled_from_list argsort how k mdfms sample ds = map_res (sampled_from argsort how k mdfms sample) ds.
Proof. exact @sampled_list. Qed.
Print Assumptions C68_list.

(** a case: longitude and latitude, bounds to be guessed for one of them; a point at -170, another without a value *)
Definition a_coord (name : string) (p : list Q) : coord := mkCoord (Some (lit name)) [] (lit name) [] [length p] (map Some p).
Definition data (lats lons : list Q) (v : list (option Q)) : udata := mkU [a_coord "latitude" lats; a_coord "longitude" lons] [length v] v.
Definition number (vs : list Q) : res (list (option nat)) := match vs with [_; _; _] => Raises ValueError | _ => Ok [Some (length vs)] end.
Definition lat_dim := mkDim (Some (lit "latitude")) [-(80); 0; 80]%Q None.
Definition lon_dim := mkDim (Some (lit "longitude")) [45; 180; 315]%Q (Some [(0, 90); (90, 270); (270, 360)]%Q).
Definition cube1 (masked : list nat -> bool) := mkCube [lon_dim; lat_dim] [] masked.
Definition d1 := data [1; -(89); 13; 14; 2]%Q [5; -(170); 5; 200; 5]%Q [Some 10; Some 20; None; Some 40; Some 50]%Q.
Definition show (r : res (gcol (V := nat))) : list (list nat * option nat) :=
  match r with
  | Ok out => map (fun c => (c, match gc_value out c with Some [v] => v | _ => None end)) (index_iterator (map (fun a => length (ax_bounds a)) (gc_axes out)))
  | Raises _ => []
  end.
Definition run how mdfms c d := sampled_from insertion_argsort how (OnValues number) mdfms c d.
Definition no_mask (_ : list nat) : bool := false.
Example C68_hypotheses : (forall l, is_argsort l (insertion_argsort l)) /\ bin_of (lit "bin") /\ aligned d1 /\ complete d1 /\ unique_standard_names (u_coords d1) /\ usual_longitudes d1 /\ has_latitude d1 /\
  2 <= length (u_coords d1) /\ u_values d1 <> [] /\ good_sample (cube1 no_mask) /\ upward_sample (cube1 no_mask) /\ all_shared (cube1 no_mask) d1 /\ only_value_error number.
Proof.
  split; [exact insertion_argsort_ok|]. split; [right; reflexivity|]. split; [repeat constructor|].
  split; [intros r Hr; vm_compute in Hr; decompose [or] Hr; subst; try reflexivity; contradiction|].
  split. { intros [|[|i]] [|[|j]] a b nm; cbn; intros Ha Hb N Sa Sb; try (destruct i; discriminate); try (destruct j; discriminate); auto; injection Ha as <-; injection Hb as <-; unfold has_std in *; cbn in Sa, Sb; exfalso; congruence. }
  split. { intros c i x [<-|[<-|[]]] L; [discriminate L|]. destruct i as [|[|[|[|[|i]]]]]; cbn; try discriminate; [intros [= <-]; lra ..|]. destruct i; discriminate. }
  split; [eexists; split; [left; reflexivity|reflexivity]|]. split; [cbn; lia|]. split; [discriminate|].
  assert (UL : ordered_up [-(80); 0; 80]%Q) by (intros [|[|[|i]]] [|[|[|j]]] p q H; cbn; intros Hp Hq; try lia; try (destruct i; discriminate); try (destruct j; discriminate); injection Hp as <-; injection Hq as <-; lra).
  assert (UO : ordered_up [45; 180; 315]%Q) by (intros [|[|[|i]]] [|[|[|j]]] p q H; cbn; intros Hp Hq; try lia; try (destruct i; discriminate); try (destruct j; discriminate); injection Hp as <-; injection Hq as <-; lra).
  split; [split; [|split]|split; [|split]].
  - intros [|[|i]] [|[|j]] nm p q; cbn; intros Ha Hb; auto; try (destruct i; discriminate); try (destruct j; discriminate); exfalso; congruence.
  - intros sp [<-|[<-|[]]]; discriminate.
  - intros s nm [<-|[<-|[]]] _ _; [|split; [cbn; lia|left; exact UL]]. split; [discriminate|]. split; [reflexivity|]. left. split; [exact UO|]. cbn. repeat split; reflexivity.
  - intros s nm [<-|[<-|[]]] _ _; auto.
  - split; [reflexivity|]. intros [|[|ci]] s H; [| |destruct ci; discriminate]; injection H as <-; [exists (lit "longitude")|exists (lit "latitude")]; (split; [reflexivity|]; split; [reflexivity|]; split; [cbn; tauto|]); [exists (a_coord "longitude" [5; -(170); 5; 200; 5]%Q)|exists (a_coord "latitude" [1; -(89); 13; 14; 2]%Q)]; split; cbn; auto.
  - intros vs e. unfold number. destruct vs as [|a [|b [|c [|x r]]]]; intros H; try discriminate. injection H as <-. reflexivity.
Qed.
Example C68_run : show (run (lit "bin") true (cube1 no_mask) d1) =
  [([0; 0], None); ([0; 1], Some 2); ([0; 2], None); ([1; 0], Some 1); ([1; 1], Some 1); ([1; 2], None); ([2; 0], None); ([2; 1], None); ([2; 2], None)] /\
  show (run [] true (cube1 (fun c => match c with [1; 0] => true | _ => false end)) d1) =
  [([0; 0], None); ([0; 1], Some 2); ([0; 2], None); ([1; 0], None); ([1; 1], Some 1); ([1; 2], None); ([2; 0], None); ([2; 1], None); ([2; 2], None)].
Proof. split; vm_compute; reflexivity. Qed.

(** What is missing. *)
Definition down := mkCube [mkDim (Some (lit "latitude")) [80; 0; -(80)]%Q None; lon_dim] [] no_mask.
Definition d2 := data [85; 1]%Q [5; 5]%Q [Some 1; Some 2]%Q.
Theorem C68_refuted :
  (* the data of the first cells along a dimension stored downwards are lost *)
  (good_sample down /\ map snd (show (run (lit "bin") false down d2)) = [None; None; None; Some 1; None; None; None; None; None]) /\
  (* a sample with longitudes from -70 to 290: the point at 200 is looked for at -160 *)
  (map snd (show (run (lit "bin") false (mkCube [mkDim (Some (lit "longitude")) [-(10); 110; 230]%Q None; lat_dim] [] no_mask) (data [1; 1]%Q [0; 200]%Q [Some 1; Some 2]%Q))) = [None; Some 1; None; None; None; None; None; None; None]) /\
  (* 'box' never gives a result *)
  (forall (V : Type) argsort (k : kernel (V := V)) mdfms sample d out, sampled_from argsort (lit "box") k mdfms sample d <> Ok out) /\
  sampled_from insertion_argsort (lit "box") (OnValues number) false (cube1 no_mask) d1 = Raises CoordinateNotFoundError /\
  (* the nearest neighbour kernels never give a value *)
  (forall (V : Type) argsort how mdfms sample d (out : gcol (V := V)), sampled_from argsort how OnPoints mdfms sample d = Ok out -> forall cell, gc_value out cell = None) /\
  sampled_from (V := nat) insertion_argsort (lit "bin") OnPoints false (cube1 no_mask) d1 = Raises CoordinateNotFoundError /\
  (* nor is there any result for a sample with a scalar or auxiliary coordinate when missing data are to be left out *)
  (forall (V : Type) argsort how (k : kernel (V := V)) sample d out, cu_aux sample <> [] -> sampled_from argsort how k true sample d <> Ok out) /\
  run (lit "bin") true (mkCube [lon_dim; lat_dim] [(Some (lit "time"), [3%Q])] no_mask) d1 = Raises UserPrintableException /\
  (* refused: no data, no latitudes, another method *)
  run (lit "bin") false (cube1 no_mask) (data [] [] []) = Raises IndexError /\
  run (lit "bin") false (cube1 no_mask) (mkU [a_coord "longitude" [1%Q]; a_coord "altitude" [1%Q]] [1] [Some 1%Q]) = Raises CoordinateNotFoundError /\
  run (lit "nn") false (cube1 no_mask) d1 = Raises ValueError.
Proof.
  split; [split; [|vm_compute; reflexivity]|]. { split; [|split].
    - intros [|[|i]] [|[|j]] nm p q; cbn; intros Ha Hb; auto; try (destruct i; discriminate); try (destruct j; discriminate); exfalso; congruence.
    - intros sp [<-|[<-|[]]]; discriminate.
    - assert (UD : ordered_down [80; 0; -(80)]%Q) by (intros [|[|[|i]]] [|[|[|j]]] p q H; cbn; intros Hp Hq; try lia; try (destruct i; discriminate); try (destruct j; discriminate); injection Hp as <-; injection Hq as <-; lra).
      assert (UO : ordered_up [45; 180; 315]%Q) by (intros [|[|[|i]]] [|[|[|j]]] p q H; cbn; intros Hp Hq; try lia; try (destruct i; discriminate); try (destruct j; discriminate); injection Hp as <-; injection Hq as <-; lra).
      intros s nm [<-|[<-|[]]] _ _; [split; [cbn; lia|right; exact UD]|]. split; [discriminate|]. split; [reflexivity|]. left. split; [exact UO|]. cbn. repeat split; reflexivity. }
  split; [vm_compute; reflexivity|]. split; [exact @box_never|]. split; [vm_compute; reflexivity|]. split; [exact @points_never|]. split; [vm_compute; reflexivity|]. split; [exact @scalar_never|]. repeat split; vm_compute; reflexivity.
Qed.
Print Assumptions C68_refuted.
