(** C80: the observations of several ESA CCI Level 2 files. *)
From Coq Require Import String.
From Verif Require Import Base PyStr QBase DateModel UngrModel UngrSpec RafModel RafSpec CciModel CciSpec CciProofs.
From Coq Require Import List.
Import ListNotations.
Open Scope string_scope. Open Scope list_scope. Open Scope nat_scope. Notation length := List.length.

(** The rows read are those of all files, one file after the other, each with the longitude, latitude, time and value of its own file; points without a complete position are left out. *)
Theorem C80_partial : forall k files name d lo la, read_cci k files name = Ok d -> names_for files lo la -> Forall well_formed files ->
  Forall (fun f => forall n, In n [lo; la; name] -> on_times f (lit "time") n) files ->
  map c_std (u_coords d) = [named_in files lo; named_in files la; named_in files (lit "time")] /\ map c_axis (u_coords d) = [lit "X"; lit "Y"; lit "T"] /\
  exists raw, Forall2 (own_row3 k lo la name) (all_points_of files (lit "time")) raw /\ rows d = filter located raw.
Proof. exact rows_cci. Qed.
Print Assumptions C80_partial.
(** The time of a row is the moment its file says, whatever the moment: Julian dates for clouds, seconds since 1970 for aerosols. *)
Theorem C80_moments : forall k t, valid_datetime t = true -> (days_since_1600 k (number_for k t) * 86400 == inject_Z (seconds_between std_ref t))%Q.
Proof. exact moments. Qed.
Print Assumptions C80_moments.
(** What is read: there are files, all with positions and times under the same names, and with the variable. *)
Theorem C80_needs : forall k files name d, read_cci k files name = Ok d -> files <> [] /\ (exists lo la, names_for files lo la) /\ Forall (fun f => variable f name <> None) files.
Proof. exact needs. Qed.
Print Assumptions C80_needs.
Theorem C80_one_way : forall files lo la lo' la', names_for files lo la -> names_for files lo' la' -> lo = lo' /\ la = la'.
Proof. exact names_unique. Qed.
Print Assumptions C80_one_way.
(** Files like this are read. *)
Theorem C80_read : forall k files name lo la tail, files <> [] -> names_for files lo la -> Forall (readable_with tail lo la name) files ->
  NoDup [named_in files lo; named_in files la; named_in files (lit "time")] -> exists d, read_cci k files name = Ok d.
Proof. exact reads_cci. Qed.
Print Assumptions C80_read.
(** Different standard names are needed for the three (the empty string is not a valid one) ... *)
Theorem C80_names_needed : forall k files name lo la d, read_cci k files name = Ok d -> names_for files lo la ->
  (forall n, In n [lo; la; lit "time"] -> named_in files n <> Some []) -> NoDup [named_in files lo; named_in files la; named_in files (lit "time")].
Proof. exact unnamed. Qed.
Print Assumptions C80_names_needed.
(** ... so that files with positions and times but no standard names are refused. *)
Theorem C80_refuted_unnamed : forall k, names_for [unnamed_file] (lit "lon") (lit "lat") /\ readable_with [] (lit "lon") (lit "lat") (lit "AOD550") unnamed_file /\ read_cci k [unnamed_file] (lit "AOD550") = Raises DuplicateCoordinateError.
Proof. exact unnamed_refused. Qed.
Print Assumptions C80_refuted_unnamed.
(** Files that can be read one by one cannot always be read together ... *)
Theorem C80_refuted_mixed : exists f g d e, read_cci Aerosol [f] (lit "AOD550") = Ok d /\ read_cci Aerosol [g] (lit "AOD550") = Ok e /\ read_cci Aerosol [f; g] (lit "AOD550") = Raises InvalidVariableError.
Proof. exact mixed_names. Qed.
Print Assumptions C80_refuted_mixed.
(** ... and the units of the times are ignored. *)
Theorem C80_refuted_units : exists f v d x y s, variable f (lit "time") = Some v /\ v_units v = lit "days since 1970-01-01 00:00:00" /\ v_data v = [Some 10957%Q] /\
  read_cci Aerosol [f] (lit "AOD550") = Ok d /\ rows d = [([x; y; Some s], Some 1%Q)] /\ ~ (s * 86400 == inject_Z (seconds_between std_ref (mkDT 2000 1 1 0 0 0)))%Q.
Proof. exact units_ignored. Qed.
Print Assumptions C80_refuted_units.
(** Examples: two aerosol files; a cloud file at noon on 1 January 2000; files that have all names *)
Example ex_two : match read_cci Aerosol [short_file; cci_file (lit "lon") (lit "lat") (lit "s") [12%Q] [52%Q] [86400%Q] [3%Q]] (lit "AOD550") with
  Ok d => map (fun r => (map (option_map Qred) (fst r), snd r)) (rows d) = [([Some 10%Q; Some 50%Q; Some 135140%Q], Some 1%Q); ([Some 11%Q; Some 51%Q; Some (270281 # 2)%Q], Some 2%Q); ([Some 12%Q; Some 52%Q; Some 135141%Q], Some 3%Q)] | Raises _ => False end.
Proof. vm_compute. reflexivity. Qed.
Example ex_cloud : match read_cci Cloud [cci_file (lit "longitude") (lit "latitude") (lit "d") [12%Q] [52%Q] [2451545%Q] [3%Q]] (lit "AOD550") with
  Ok d => map (fun r => map (option_map Qred) (fst r)) (rows d) = [[Some 12%Q; Some 52%Q; Some (292195 # 2)%Q]] | Raises _ => False end.
Proof. vm_compute. reflexivity. Qed.
Example ex_names : names_for [short_file; short_file] (lit "lon") (lit "lat") /\ names_for [long_file] (lit "longitude") (lit "latitude").
Proof.
  split; [left|right]; repeat (split; [reflexivity|]).
  - repeat constructor; intros n [<-|[<-|[<-|[]]]]; vm_compute; discriminate.
  - split; [|repeat constructor; intros n [<-|[<-|[<-|[]]]]; vm_compute; discriminate]. intros F. inversion F as [|? ? H]. apply (H (lit "lon")); [left; reflexivity|reflexivity].
Qed.
Example ex_readable : readable_with [] (lit "lon") (lit "lat") (lit "AOD550") short_file.
Proof.
  split; [|split; [vm_compute; discriminate|split; [do 2 eexists; split; [reflexivity|reflexivity]|]]].
  - intros n v. unfold variable. unfold short_file, cci_file, cci_file_as. cbn [find f_vars fst]. repeat match goal with |- context [str_eqb ?a n] => destruct (str_eqb a n); [intros [= <-]; reflexivity|] end. discriminate.
  - intros n [<-|[<-|[<-|[]]]] v w [= <-] [= <-]; split; reflexivity.
Qed.
