(** C106: coordinates looked up by criteria. *)
From Verif Require Import Base PyStr QBase UngrModel CrtModel CrtSpec CrtProofs Crt2Proofs Crt3Proofs.
From Coq Require Import List. Import ListNotations. Open Scope string_scope. Open Scope list_scope.
Definition ex_std (name axis : String.string) : acoord := make_coord (Some (lit name)) [] (lit name) (lit axis) [] [] [(lit "valid_min", lit "0")].
Definition ex_list : list acoord := [ex_std "latitude" "y"; ex_std "longitude" "x"; make_coord None (lit "time of day") (lit "tod") (lit "T") [] [] []].
Example ex_made : Forall made ex_list.
Proof. repeat constructor; try (exists (lit "y"); reflexivity); try (exists (lit "x"); reflexivity); try (exists (lit "T"); reflexivity); cbn; auto. Qed.

(** exactly the coordinates that meet all the criteria, in their order *)
Theorem C106_coords : forall all q, Forall made all -> readable q -> exists r, get_coords all q = Ok r /\ those (meets q) all (items all r).
Proof. exact coords_those. Qed.
Print Assumptions C106_coords.
Theorem C106_attributes_refused : forall all q, ~ readable q -> get_coords all q = Raises ValueError.
Proof. exact coords_unreadable. Qed.
Print Assumptions C106_attributes_refused.
Example C106_coords_example : items ex_list (match get_coords ex_list (mkQuery None None None (Some (Mapping [(lit "valid_min", lit "0")])) (Some (lit "X")) None) with Ok r => r | Raises _ => New [] end) = [ex_std "longitude" "x"] /\
  get_coords ex_list (mkQuery (Some (Name (lit "time of day"))) None (Some (lit "time of day")) None (Some (lit "t")) (Some (lit "tod"))) = Ok (New [nth 2 ex_list (ex_std "" "")]).
Proof. split; vm_compute; reflexivity. Qed.
(** without any criterion the list itself is given out, and only then: what is appended to it is appended to the data *)
Theorem C106_itself : forall all q, get_coords all q = Ok Itself <-> no_criteria q.
Proof. exact coords_itself. Qed.
Print Assumptions C106_itself.
Theorem C106_shared : forall all c, Forall (fun x => c_std (k_coord x) <> c_std (k_coord c)) all -> forall r, get_coords all nothing_asked = Ok r -> append_to all r c = Ok (all ++ [c], all ++ [c]).
Proof. exact shared. Qed.
Print Assumptions C106_shared.
Theorem C106_not_shared : forall all q c, ~ no_criteria q -> forall r, get_coords all q = Ok r -> append_to all r c = Ok (all, items all r ++ [c]).
Proof. exact not_shared. Qed.
Print Assumptions C106_not_shared.
Theorem C106_duplicate : forall all c r, get_coords all nothing_asked = Ok r ->
  (c_std (k_coord c) <> Some [] -> (exists x, In x all /\ c_std (k_coord x) = c_std (k_coord c)) -> append_to all r c = Raises DuplicateCoordinateError) /\
  (c_std (k_coord c) = Some [] -> append_to all r c = Ok (all ++ [c], all ++ [c])).
Proof. exact duplicate. Qed.
Print Assumptions C106_duplicate.
Example C106_duplicate_example : append_to ex_list Itself (ex_std "longitude" "x") = Raises DuplicateCoordinateError /\ get_coords ex_list nothing_asked = Ok Itself.
Proof. split; vm_compute; reflexivity. Qed.

(** one coordinate: the only one that meets the criteria; an error if there are several *)
Theorem C106_only : forall all q, Forall made all -> readable q -> forall c, only (meets q) all c -> get_coord all q = Ok c.
Proof. exact coord_only. Qed.
Print Assumptions C106_only.
Theorem C106_several : forall all q, Forall made all -> readable q -> several (meets q) all -> get_coord all q = Raises CoordinateNotFoundError.
Proof. exact coord_several. Qed.
Print Assumptions C106_several.
(** none meets them: if a name was given, the only coordinate with that standard name, or else an error *)
Theorem C106_by_standard_name : forall all q, Forall made all -> readable q -> forall n c, w_name q = Some (Name n) -> none (meets q) all -> only (standard n) all c -> get_coord all q = Ok c.
Proof. exact coord_by_standard. Qed.
Print Assumptions C106_by_standard_name.
Theorem C106_not_found_partial : forall all q, Forall made all -> readable q -> none (meets q) all ->
  (forall n, w_name q = Some (Name n) -> none (standard n) all \/ several (standard n) all -> get_coord all q = Raises CoordinateNotFoundError) /\
  (w_name q = None -> List.length all <> 1%nat -> get_coord all q = Raises CoordinateNotFoundError).
Proof. exact (fun all q M R N => conj (fun n W O => coord_not_named all q M R n W N O) (fun W L => coord_unnamed_missing all q M R W N L)). Qed.
Print Assumptions C106_not_found_partial.
Example C106_example : only (meets (mkQuery (Some (Name (lit "latitude"))) None None None (Some (lit "Y")) None)) ex_list (ex_std "latitude" "y") /\
  get_coord ex_list (mkQuery None None None None (Some (lit "z")) None) = Raises CoordinateNotFoundError /\ none (standard (lit "altitude")) ex_list.
Proof.
  split; [|split; [vm_compute; reflexivity|repeat constructor; discriminate]]. exists [], (skipn 1 ex_list). split; [reflexivity|].
  assert (H : forall c, made c -> passes (mkQuery (Some (Name (lit "latitude"))) None None None (Some (lit "Y")) None) c = false -> ~ meets (mkQuery (Some (Name (lit "latitude"))) None None None (Some (lit "Y")) None) c).
  { intros c M E K. apply passes_meets in K; [congruence|auto|discriminate]. }
  pose proof ex_made as M. split; [apply passes_meets; [exact (Forall_inv M)|discriminate|vm_compute; reflexivity]|]. split; [constructor|].
  repeat constructor; apply H; [exact (Forall_inv (Forall_inv_tail M))|vm_compute; reflexivity|exact (Forall_inv (Forall_inv_tail (Forall_inv_tail M)))|vm_compute; reflexivity].
Qed.
(** so a coordinate may be given that does not meet the criteria: asked for the latitude on the X axis, it gives the latitude *)
Theorem C106_dropped_refuted : exists all q c, Forall made all /\ readable q /\ get_coord all q = Ok c /\ ~ meets q c /\ List.length all = 3%nat.
Proof.
  exists ex_list, (mkQuery (Some (Name (lit "latitude"))) None None None (Some (lit "X")) None), (ex_std "latitude" "y"). split; [exact ex_made|]. split; [discriminate|]. split; [vm_compute; reflexivity|]. split; [|reflexivity].
  intros K. apply passes_meets in K; [vm_compute in K; discriminate K|exact (Forall_inv ex_made)|discriminate].
Qed.
Print Assumptions C106_dropped_refuted.
(** and in a list of one coordinate it is given for any criteria without a name *)
Theorem C106_single_refuted : forall all q, readable q -> forall c, w_name q = None -> all = [c] -> get_coord all q = Ok c.
Proof. exact coord_unnamed_single. Qed.
Print Assumptions C106_single_refuted.
(** a coordinate as the criterion: the only one with its standard name; if there is none, not a CoordinateNotFoundError *)
Theorem C106_like : forall all c n, Forall made all -> c_std (k_coord c) = Some n -> n <> [] -> forall c', only (standard n) all c' -> get_coord all (like c) = Ok c'.
Proof. exact coord_like. Qed.
Print Assumptions C106_like.
Theorem C106_like_missing_refuted : forall all q, Forall made all -> readable q -> forall o, w_name q = Some (Like o) -> none (meets q) all -> all <> [] -> get_coord all q = Raises AttributeError.
Proof. exact coord_like_missing. Qed.
Print Assumptions C106_like_missing_refuted.
(** the standard coordinates, latitude, longitude, altitude, air pressure and time: each the only one with its standard name, or none; in a list of one coordinate they are all that one *)
Theorem C106_standard_partial : forall all, Forall made all -> List.length all <> 1%nat -> exists outs, standard_coords all = Ok outs /\
  Forall2 (fun n o => forall c, o = Some c <-> only (standard n) all c) [lit "latitude"; lit "longitude"; lit "altitude"; lit "air_pressure"; lit "time"] outs.
Proof. exact standard_found. Qed.
Print Assumptions C106_standard_partial.
Theorem C106_standard_refuted : forall c, standard_coords [c] = Ok [Some c; Some c; Some c; Some c; Some c].
Proof. exact single_every. Qed.
Print Assumptions C106_standard_refuted.
