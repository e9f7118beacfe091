(** C89: the variables of files, and the info command. *)
From Coq Require Import String.
From Verif Require Import Base PyStr FileListModel ParseModel ParseSpec LstModel LstSpec LstProofs.
From Coq Require Import List Ascii.
Import ListNotations.
Open Scope string_scope. Open Scope list_scope. Open Scope nat_scope. Notation length := List.length.

(** the variables of a NetCDF file are those of its groups at any depth, each under its full name, once *)
Theorem C89_groups root : lawful root ->
  (forall n dims, In (n, dims) (all_variables root) <-> exists path name, located root path name dims /\ n = full_name path name) /\ NoDup (map fst (all_variables root)).
Proof. exact (groups_ok root). Qed.
Print Assumptions C89_groups.
Definition file1 : group := Group [(lit "time", [lit "time"]); (lit "aod", [lit "time"; lit "wl"])] [(lit "AVHRR", Group [(lit "aod", [lit "time"])] [(lit "raw", Group [(lit "c", [])] [])]); (lit "b", Group [] [])].
Example C89_groups_ex : lawful file1 /\ map fst (all_variables file1) = [lit "time"; lit "aod"; lit "AVHRR/aod"; lit "AVHRR/raw/c"].
Proof.
  split; [|vm_compute; reflexivity].
  assert (C : lawful (Group [(lit "c", [])] [])). { apply lawful_group; cbn [map fst]. - constructor; [intros []|constructor]. - intros n d [E|[]]. injection E as <- <-. cbv. intuition discriminate. - constructor. - intros ? ? []. - intros ? ? []. }
  assert (D : lawful (Group [] [])) by (apply lawful_group; cbn; try constructor; intros ? ? []).
  apply lawful_group.
  - cbn [map fst]. constructor; [|constructor; [intros []|constructor]]. intros [E|[]]. discriminate.
  - intros n d [E|[E|[]]]; injection E as <- <-; cbv; intuition discriminate.
  - cbn [map fst]. constructor; [|constructor; [intros []|constructor]]. intros [E|[]]. discriminate.
  - intros k g [E|[E|[]]]; injection E as <- <-; cbv; intuition discriminate.
  - intros k g [E|[E|[]]]; injection E as <- <-; [|exact D]. apply lawful_group; cbn [map fst].
    + constructor; [intros []|constructor]. + intros n d [E|[]]. injection E as <- <-. cbv. intuition discriminate. + constructor; [intros []|constructor].
    + intros n d [E|[]]. injection E as <- <-. cbv. intuition discriminate. + intros n d [E|[]]. injection E as <- <-. exact C.
Qed.
(** without coordinates: those of the root's dimensions are left out.  The coordinate variables of groups are not *)
Theorem C89_exclude root dims n ds : In (n, ds) (netcdf_variables true dims root) <-> In (n, ds) (all_variables root) /\ ~ In n dims.
Proof. exact (exclude_ok root dims n ds). Qed.
Print Assumptions C89_exclude.
Theorem C89_exclude_groups_refuted : exists root dims n, In (n, [lit "y"]) (netcdf_variables true dims root) /\ located root [lit "g"] (lit "y") [lit "y"] /\ n = full_name [lit "g"] (lit "y").
Proof.
  exists (Group [] [(lit "g", Group [(lit "y", [lit "y"])] [])]), [lit "y"], (lit "g/y"). split; [left; reflexivity|]. split; [|reflexivity].
  eapply below; [left; reflexivity|]. apply here. left. reflexivity.
Qed.
Print Assumptions C89_exclude_groups_refuted.
(** the dimensions a product can use *)
Theorem C89_dimensions valid d n dims : In (n, dims) (spatiotemporal valid d) <-> In (n, dims) d /\ forall l, valid = Some l -> forall x, In x dims -> In x l.
Proof. exact (spatiotemporal_ok valid d n dims). Qed.
Print Assumptions C89_dimensions.
Example C89_dimensions_ex : map fst (spatiotemporal (Some [lit "time"]) (all_variables file1)) = [lit "time"; lit "AVHRR/aod"; lit "AVHRR/raw/c"].
Proof. vm_compute. reflexivity. Qed.
(** the names listed for several files: exactly those that one of them offers, once *)
Theorem C89_names valid files t : Forall (usable t) files -> exists l, get_variable_names valid files t = Ok l /\ NoDup l /\ forall n, In n l <-> exists f, In f files /\ offers valid t f n.
Proof. exact (names_ok valid files t). Qed.
Print Assumptions C89_names.
Example C89_names_ex : Forall (usable None) [(lit "a.nc", NetCDF file1); (lit "b.hdf", HDF4 (mkHdf (Some [lit "sd1"; lit "aod"]) (Some [lit "vd1"])))] /\
  get_variable_names (Some [lit "time"; lit "wl"]) [(lit "a.nc", NetCDF file1); (lit "b.hdf", HDF4 (mkHdf (Some [lit "sd1"; lit "aod"]) (Some [lit "vd1"])))] None = Ok [lit "time"; lit "AVHRR/aod"; lit "AVHRR/raw/c"; lit "sd1"; lit "aod"].
Proof.
  split; [|vm_compute; reflexivity]. constructor; [|constructor; [|constructor]].
  - apply usable_netcdf; [left; exists (lit "a"); reflexivity|]. exact (proj1 C89_groups_ex).
  - apply usable_hdf; [exists (lit "b"); reflexivity|left; reflexivity].
Qed.
(** the documented type All, and the documented "both are computed" *)
Theorem C89_all_refuted valid file sd vd rest : ends (lit ".hdf") file -> get_variable_names valid ((file, HDF4 (mkHdf (Some sd) (Some vd))) :: rest) (Some (lit "All")) = Raises ValueError.
Proof. intros E. apply all_refuted; auto; discriminate. Qed.
Print Assumptions C89_all_refuted.
Theorem C89_type valid file h rest t : ends (lit ".hdf") file -> ~ asks (Some t) (lit "sd") -> ~ asks (Some t) (lit "vd") -> get_variable_names valid ((file, HDF4 h) :: rest) (Some t) = Raises ValueError.
Proof. exact (all_refuted valid file h rest t). Qed.
Print Assumptions C89_type.
Theorem C89_both_refuted sd vd : hdf4_variables (mkHdf (Some sd) (Some vd)) None = Ok (Some sd, None).
Proof. exact (both_refuted sd vd). Qed.
Print Assumptions C89_both_refuted.
(** files of other endings; NetCDF files that cannot be opened; HDF files that cannot be read *)
Theorem C89_ending_refuted valid pre file c rest t : Forall (usable t) pre -> ~ ends (lit ".nc") file -> ~ ends (lit ".hdf") file -> ~ ends (lit ".h5") file ->
  get_variable_names valid (pre ++ (file, c) :: rest) t = Raises TypeError.
Proof. exact (other_ending valid pre file c rest t). Qed.
Print Assumptions C89_ending_refuted.
Example C89_ending_ex : get_variable_names None [(lit "a.nc4", NetCDF file1)] None = Raises TypeError.
Proof. reflexivity. Qed.
Theorem C89_unopened valid pre file c rest t : Forall (usable t) pre -> ends (lit ".nc") file \/ ends (lit ".h5") file -> (forall g, c <> NetCDF g) ->
  get_variable_names valid (pre ++ (file, c) :: rest) t = Raises OSError.
Proof. exact (unopened valid pre file c rest t). Qed.
Print Assumptions C89_unopened.
Theorem C89_unreadable_refuted valid file t : ends (lit ".hdf") file -> asks t (lit "sd") \/ asks t (lit "vd") -> get_variable_names valid [(file, Unreadable)] t = Ok [].
Proof. exact (unreadable_refuted valid file t). Qed.
Print Assumptions C89_unreadable_refuted.

(** MODIS L2, CALIOP: the datasets beside the latitudes, if all files are of one size; else not *)
Theorem C89_modis_partial files s : files <> [] -> Forall (fun f : list (str * list nat) => once f /\ In (lit "Latitude", s) f) files ->
  exists l, modis_names files = Ok l /\ NoDup l /\ forall n, In n l <-> exists f, In f files /\ beside (lit "Latitude") f n.
Proof. exact (modis_ok files s). Qed.
Print Assumptions C89_modis_partial.
Example C89_modis_ex : modis_names [[(lit "Latitude", [3; 2]); (lit "a", [3; 2]); (lit "b", [3])]; [(lit "c", [3; 2]); (lit "Latitude", [3; 2])]] = Ok [lit "a"; lit "c"; lit "Latitude"].
Proof. vm_compute. reflexivity. Qed.
Theorem C89_modis_refuted : exists f g l, Forall once [f; g] /\ modis_names [f; g] = Ok l /\ exists n, beside (lit "Latitude") g n /\ ~ In n l.
Proof. exact modis_refuted. Qed.
Print Assumptions C89_modis_refuted.
Theorem C89_caliop_partial altitudes files k s : files <> [] -> Forall (fun f : list (str * list nat) => once f /\ In (lit "Latitude", k :: s) f) files ->
  exists l, caliop_names altitudes files = Ok l /\ NoDup l /\ forall n, In n l <-> exists f, In f files /\ over_altitudes altitudes f n.
Proof. exact (caliop_ok altitudes files k s). Qed.
Print Assumptions C89_caliop_partial.
Example C89_caliop_ex : caliop_names 5 [[(lit "Latitude", [3; 1]); (lit "a", [3; 5]); (lit "b", [3; 1])]] = Ok [lit "a"].
Proof. vm_compute. reflexivity. Qed.
Theorem C89_caliop_refuted : exists f g l, Forall once [f; g] /\ caliop_names 5 [f; g] = Ok l /\ exists n, over_altitudes 5 g n /\ ~ In n l.
Proof. exact caliop_refuted. Qed.
Print Assumptions C89_caliop_refuted.
(** CloudSat: each file by its own sizes *)
Theorem C89_cloudsat files : Forall (fun f : list (str * nat) * list (str * list nat) => once (fst f) /\ once (snd f) /\ In (lit "Latitude") (map fst (fst f))) files ->
  exists l, cloudsat_names files = Ok l /\ NoDup l /\ forall n, In n l <-> exists f, In f files /\ level f n.
Proof. exact (cloudsat_ok files). Qed.
Print Assumptions C89_cloudsat.
Example C89_cloudsat_ex : cloudsat_names [([(lit "Latitude", 3); (lit "t", 1); (lit "DEM", 3)], [(lit "Height", [3; 125]); (lit "RVOD", [3; 125]); (lit "x", [3])]); ([(lit "Latitude", 4); (lit "u", 4)], [])] =
  Ok [lit "DEM"; lit "Height"; lit "RVOD"; lit "Latitude"; lit "u"].
Proof. vm_compute. reflexivity. Qed.

(** an error within a product is reported with its message - if it has one *)
Theorem C89_errors A product kind message more (a : A) : through_product product (Throws (A := A) kind (message :: more)) = PluginException product kind message /\ through_product product (Gives a) = Returned a.
Proof. exact (errors_ok A product kind message more a). Qed.
Print Assumptions C89_errors.
Theorem C89_errors_refuted A product kind : through_product product (Throws (A := A) kind []) = Other IndexError.
Proof. exact (errors_refuted A product kind). Qed.
Print Assumptions C89_errors_refuted.
(** info prints the variables asked for, one after the other until one cannot be read; or lists the names *)
Theorem C89_info data names : (forall variables, prints data variables (fst (info data names (Some variables))) (snd (info data names (Some variables)))) /\
  (forall l, names = Ok l -> info data names None = (l, None)) /\ (forall e, names = Raises e -> info data names None = ([], Some e)).
Proof. exact (info_ok data names). Qed.
Print Assumptions C89_info.
Example C89_info_ex : info (fun v => if str_eqb v (lit "b") then Raises KeyError else Ok v) (Ok []) (Some [lit "a"; lit "b"; lit "c"]) = ([lit "a"], Some KeyError).
Proof. reflexivity. Qed.
(** its argument: files; or variables and files *)
Theorem C89_args V cv cf cp : (forall file fs, cf file = Ok fs -> info_args V cv cf cp (escape file) = Ok [(lit "filenames", Checked fs)]) /\
  (forall file, cf file = Raises ParserError -> info_args V cv cf cp (escape file) = Raises ParserError) /\
  (forall variables file vs fs, ~ ends_in_backslash variables -> cv variables = Ok vs -> cf file = Ok fs ->
     info_args V cv cf cp (escape variables ++ ":"%char :: escape file) = Ok [(lit "variables", Checked vs); (lit "filenames", Checked fs)]).
Proof. split; [intros file fs E; rewrite args_file, E; reflexivity|]. split; [intros file E; rewrite args_file, E; reflexivity|]. intros. now apply args_both. Qed.
Print Assumptions C89_args.
(** the documented "filename:product=..." without variables takes the file for a variable *)
Theorem C89_args_product_refuted V cv cf cp file product vs : ~ ends_in_backslash file -> cv file = Ok vs -> cf (lit "product=" ++ product) = Raises ParserError ->
  info_args V cv cf cp (escape file ++ ":"%char :: escape (lit "product=" ++ product)) = Raises ParserError.
Proof. exact (args_product_refuted V cv cf cp file product vs). Qed.
Print Assumptions C89_args_product_refuted.
Definition files1 (s : str) : res str := if str_eqb s (lit "f:1.nc") then Ok s else Raises ParserError.
Example C89_args_ex : info_args str Ok files1 Ok (lit "f\:1.nc") = Ok [(lit "filenames", Checked (lit "f:1.nc"))] /\
  info_args str Ok files1 Ok (lit "a,b:f\:1.nc:product=cis") = Ok [(lit "variables", Checked (lit "a,b")); (lit "filenames", Checked (lit "f:1.nc")); (lit "product", Raw (lit "cis"))] /\
  info_args str Ok files1 Ok (lit "f\:1.nc:product=cis") = Raises ParserError.
Proof. vm_compute. auto. Qed.
