(** What is expected of gridded data and of lists of them (C93), in terms of the objects before and after. *)
From Coq Require Import String Ascii.
From Verif Require Import Base PyStr FileListModel UngrModel GlModel.

(** [c'] is the cube [c] as gridded data: a GriddedData object is left alone; a plain cube keeps all its contents and has no variable attributes of its own yet *)
Definition as_gridded (c c' : cube) : Prop :=
  k_gridded c' = true /\ (k_gridded c = true -> c' = c) /\
  (k_gridded c = false -> k_local c' = [] /\ k_attrs c' = k_attrs c /\ k_slots c' = k_slots c /\ k_var c' = k_var c /\ k_coords c' = k_coords c /\
                          k_ndim c' = k_ndim c /\ k_data c' = k_data c /\ k_files c' = k_files c).
(** the addresses are those of cubes of the heap *)
Definition live (h : heap) (l : list nat) : Prop := forall a, In a l -> a < List.length (h_cubes h).
(** the coordinates of the cube have these shapes *)
Definition shaped (shapes : list (list nat)) (c : cube) : Prop := map snd (k_coords c) = shapes.
(** nothing that was in the heap has changed *)
Definition kept (h h' : heap) : Prop := (forall a, a < List.length (h_cubes h) -> get h' a = get h a) /\ h_lists h' = h_lists h.
(** the k-th part of the outcome comes from the k-th item: the objects at [out] are, in order, the results of [op] on the items [l] *)
Definition results_of (op : cube -> res (list cube)) (h h' : heap) (l out : list nat) : Prop :=
  exists css, Forall2 (fun a cs => op (get h a) = Ok cs) l css /\ Forall2 (fun c b => as_gridded c (get h' b)) (concat css) out.
Definition one_result_of (op : cube -> res cube) (h h' : heap) (l out : list nat) : Prop :=
  Forall2 (fun a b => exists c, op (get h a) = Ok c /\ as_gridded c (get h' b)) l out.
(** the files a variable says it comes from *)
Definition files_of (h : heap) (a : nat) (fs : list str) : Prop := nth_error (h_lists h) (k_files (get h a)) = Some fs.
(** The names of the aggregation kernels and what each stands for *)
Definition known_kernels : list (string * list string) :=
  [("sum", ["sum"]); ("median", ["median"]); ("gmean", ["geometric_mean"]); ("hmean", ["harmonic_mean"]); ("peak", ["peak"]); ("RMS", ["root mean square"]);
   ("mean", ["mean"]); ("min", ["minimum"]); ("max", ["maximum"]); ("moments", ["mean"; "standard_deviation"; "count"])]%string.
(** the three outputs of 'moments' for a variable *)
Definition moments_of (v : str) : list str := [v; v ++ lit "_std_dev"; v ++ lit "_num_points"].
(** one entry of a history *)
Definition entry (e : str * str) : str := fst e ++ snd e.
(** all the entries, one after the other, starting from the attributes [attrs] *)
Fixpoint record_all (es : list (str * str)) (attrs : list (str * str)) : res (list (str * str)) :=
  match es with [] => Ok attrs | e :: es => bind (add_history (fst e) (Some (snd e)) attrs) (record_all es) end.
