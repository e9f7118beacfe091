(** C95: which variable a name reads. *)
From Coq Require Import String.
From Verif Require Import Base PyStr FileListModel LstModel LstSpec LstProps HdfModel HdfSpec NamModel NamSpec NamProofs.
From Coq Require Import List Ascii.
Import ListNotations.
Open Scope string_scope. Open Scope list_scope. Open Scope nat_scope. Notation length := List.length.

(** *** NetCDF *)
(** a name reads the variable at the end of the path it spells, and no other *)
Theorem C95_read root n dims : lawful root -> (read_one root n = Ok dims <-> names root n dims).
Proof. exact (read_iff root n dims). Qed.
Print Assumptions C95_read.
(** exactly the names that the info command lists can be read, and each gives the variable that was listed *)
Theorem C95_listed root n dims : lawful root -> (In (n, dims) (all_variables root) <-> read_one root n = Ok dims).
Proof. exact (listed_iff root n dims). Qed.
Print Assumptions C95_listed.
Example C95_listed_ex : lawful file1 /\ read_one file1 (lit "AVHRR/aod") = Ok [lit "time"] /\ read_one file1 (lit "aod") = Ok [lit "time"; lit "wl"] /\ read_one file1 (lit "AVHRR/raw/c") = Ok [].
Proof. split; [exact (proj1 C89_groups_ex)|]. vm_compute. auto. Qed.
(** an unknown variable of an existing group is the documented error; that of an unknown group is a KeyError *)
Theorem C95_unknown_partial root path g name : lawful root -> leads root path g -> ~ In name (map fst (vars_of g)) -> (forall p, In p (path ++ [name]) -> plain p) ->
  read_one root (full_name path name) = Raises InvalidVariableError.
Proof. exact (unknown_variable root path g name). Qed.
Print Assumptions C95_unknown_partial.
Theorem C95_unknown_group root path name : lawful root -> (forall g, ~ leads root path g) -> (forall p, In p (path ++ [name]) -> plain p) -> read_one root (full_name path name) = Raises KeyError.
Proof. exact (unknown_group root path name). Qed.
Print Assumptions C95_unknown_group.
Theorem C95_unknown_refuted : exists root n, lawful root /\ ~ (exists dims, names root n dims) /\ read_one root n <> Raises InvalidVariableError.
Proof.
  exists file1, (lit "MODIS/aod"). split; [exact (proj1 C89_groups_ex)|]. split; [|vm_compute; discriminate]. intros (dims & H). apply (proj2 (C95_read file1 (lit "MODIS/aod") dims (proj1 C89_groups_ex))) in H. vm_compute in H. discriminate.
Qed.
Print Assumptions C95_unknown_refuted.
Example C95_unknown_ex : read_one file1 (lit "AVHRR/aot") = Raises InvalidVariableError /\ read_one file1 (lit "MODIS/aod") = Raises KeyError /\ read_one file1 (lit "/aod") = Raises KeyError.
Proof. vm_compute. auto. Qed.
(** several names of many files: every name once, with one variable of each file, in the order of the files; it succeeds exactly if every file has all the names *)
Theorem C95_many files ns : files <> [] -> (forall root, In (Some root) files -> lawful root) ->
  ((exists d, read_many_files_individually files ns = Ok d) <-> forall f, In f files -> exists root, f = Some root /\ forall n, In n ns -> exists dims, names root n dims) /\
  forall d, read_many_files_individually files ns = Ok d -> (forall n, In n (map fst d) <-> In n ns) /\
    forall n, In n ns -> exists vs, dict_get d n = Some vs /\ Forall2 (fun f v => exists root, f = Some root /\ names root n v) files vs.
Proof. exact (many_ok files ns). Qed.
Print Assumptions C95_many.
Definition file2 : group := Group [(lit "time", [lit "t2"]); (lit "aod", [lit "t2"])] [].
Example C95_many_ex : read_many_files_individually [Some file1; Some file2] [lit "aod"; lit "time"; lit "aod"] = Ok [(lit "aod", [[lit "time"; lit "wl"]; [lit "t2"]]); (lit "time", [[lit "time"]; [lit "t2"]])] /\
  read_many_files_individually [Some file1; Some file2] [lit "AVHRR/aod"] = Raises KeyError.
Proof. vm_compute. auto. Qed.

(** *** HDF4 *)
(** it succeeds exactly for files called .hdf that all have every name, as a dataset or as a table *)
Theorem C95_hdf {SD VD} (files : list (hfile SD VD)) vars : (exists r, hdf4_read files vars = Ok r) <-> forall f, In f files -> hdf_name (h_name f) /\ forall x, In x vars -> in_file f x.
Proof. exact (hdf4_iff files vars). Qed.
Print Assumptions C95_hdf.
Theorem C95_hdf_unknown {SD VD} (files : list (hfile SD VD)) vars f x : (forall f, In f files -> hdf_name (h_name f)) -> In f files -> In x vars -> ~ in_file f x -> hdf4_read files vars = Raises InvalidVariableError.
Proof. exact (hdf4_unknown files vars f x). Qed.
Print Assumptions C95_hdf_unknown.
(** a name stands for the datasets of the files, in their order; and, asked for once, for the tables of those files that have no such dataset *)
Theorem C95_hdf_datasets {SD VD} (files : list (hfile SD VD)) vars s v x vs : hdf4_read files vars = Ok (s, v) -> In x vars -> found (fun f => dataset (h_sd f) x) files vs -> stored s x vs.
Proof. exact (hdf4_datasets files vars s v x vs). Qed.
Print Assumptions C95_hdf_datasets.
Theorem C95_hdf_tables_partial {SD VD} (files : list (hfile SD VD)) vars s v x vs : hdf4_read files vars = Ok (s, v) -> asked_once x vars -> found (own_table x) files vs -> stored v x vs.
Proof. exact (hdf4_tables files vars s v x vs). Qed.
Print Assumptions C95_hdf_tables_partial.
(** asked for again, it stands for the tables of all files, so for a dataset and a table at the same time *)
Theorem C95_hdf_tables_again {SD VD} (files : list (hfile SD VD)) vars s v x vs : hdf4_read files vars = Ok (s, v) -> In x vars -> ~ asked_once x vars -> found (fun f => dataset (h_vd f) x) files vs -> stored v x vs.
Proof. exact (hdf4_tables_again files vars s v x vs). Qed.
Print Assumptions C95_hdf_tables_again.
Definition hdf1 : hfile nat nat := mkHfile (lit "a.hdf") [(lit "Height", 1); (lit "Both", 2)] [(lit "Latitude", 3); (lit "Both", 4)] [].
Definition hdf2 : hfile nat nat := mkHfile (lit "b.hdf") [(lit "Height", 5)] [(lit "Latitude", 6); (lit "Both", 7)] [].
Theorem C95_hdf_once_refuted : exists (f : hfile nat nat) vars s v x, hdf4_read [f] vars = Ok (s, v) /\ dataset (h_sd f) x <> None /\ dict_get v x <> None.
Proof. exists hdf1, [lit "Both"; lit "Both"], [(lit "Both", [2])], [(lit "Both", [4])], (lit "Both"). vm_compute. split; [reflexivity|]. split; discriminate. Qed.
Print Assumptions C95_hdf_once_refuted.
Example C95_hdf_ex : hdf4_read [hdf1; hdf2] [lit "Height"; lit "Latitude"; lit "Both"] = Ok ([(lit "Height", [1; 5]); (lit "Both", [2])], [(lit "Latitude", [3; 6]); (lit "Both", [7])]) /\
  found (own_table (lit "Both")) [hdf1; hdf2] [7] /\ hdf4_read [hdf1; hdf2] [lit "Lat"] = Raises InvalidVariableError.
Proof. split; [vm_compute; reflexivity|]. split; [|vm_compute; reflexivity]. apply found_skip; [vm_compute; reflexivity|]. apply found_one; [vm_compute; reflexivity|]. constructor. Qed.

(** *** the datasets of HDF4 files are opened when they are asked *)
(** whatever questions were asked and however they failed, no file stays open *)
Theorem C95_closed {A} (ts : list (attempt A)) : open_files (fst (ask_all new_object ts)) = 0.
Proof. exact (calm_closed _ (ask_all_calm ts new_object fresh_calm)). Qed.
Print Assumptions C95_closed.
(** and every question is answered as if it were the only one *)
Theorem C95_answers {A} (ts : list (attempt A)) : snd (ask_all new_object ts) = map (fun t => if t_opens t && t_selects t then t_answer t else None) ts.
Proof. exact (ask_all_good ts new_object fresh_calm). Qed.
Print Assumptions C95_answers.
Example C95_answers_ex : snd (ask_all new_object [mkAttempt true true (Some 1); mkAttempt false true (Some 2); mkAttempt true false (Some 3); mkAttempt true true None; mkAttempt true true (Some 5)]) = [Some 1; None; None; None; Some 5].
Proof. reflexivity. Qed.

(** *** data objects of handles: one reader for all, by their class; handles of different or other classes are refused *)
Theorem C95_reader kinds r : choose_reader false kinds = Ok r <-> exists k, kinds <> [] /\ (forall k', In k' kinds -> k' = k) /\ readable k r.
Proof. exact (reader_iff kinds r). Qed.
Print Assumptions C95_reader.
Theorem C95_reader_error kinds e : choose_reader false kinds = Raises e -> (kinds = [] /\ e = IndexError) \/ (kinds <> [] /\ e = InvalidDataTypeError).
Proof. exact (reader_error kinds e). Qed.
Print Assumptions C95_reader_error.
Theorem C95_reader_callback kinds : choose_reader true kinds = Ok ByCallback.
Proof. reflexivity. Qed.
Print Assumptions C95_reader_callback.
Example C95_reader_ex : choose_reader false [lit "VDS"; lit "VDS"] = Ok ReadVD /\ choose_reader false [lit "VDS"; lit "HDF_SDS"] = Raises InvalidDataTypeError.
Proof. vm_compute. auto. Qed.
