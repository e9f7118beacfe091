(** C74: the observations of Aeronet files. *)
From Coq Require Import String.
From Verif Require Import Base PyStr QBase AeroModel AeroSpec AeroProofs UngrModel UngrSpec SunModel SunSpec Sun3Proofs Sun4Proofs.
From Coq Require Import List Ascii Lia.
Import ListNotations.
Open Scope string_scope. Open Scope list_scope. Open Scope nat_scope. Notation length := List.length.

(** Every line of data, file by file: its own value, its own time, and the place the line, or the header of its own file, gives.  For whatever float() reads in texts and whatever the dates stand for. *)
Theorem C74_rows_partial : forall float_of stamp variable files, plain_variable variable -> (forall f, In f files -> readable float_of stamp variable f) -> all_lines files <> [] ->
  exists d, read_aeronet float_of stamp (map fst files) variable = Ok d /\ map c_std (u_coords d) = sun_names /\ exists raw, Forall2 (sun_row float_of stamp variable) (all_lines files) raw /\ rows d = filter located raw.
Proof. exact sun_rows. Qed.
Print Assumptions C74_rows_partial.
(** Without any line of data: KeyError, not an empty result. *)
Theorem C74_no_data : forall float_of stamp variable files, plain_variable variable -> (forall f, In f files -> readable float_of stamp variable f) -> all_lines files = [] -> read_aeronet float_of stamp (map fst files) variable = Raises KeyError.
Proof. exact sun_nothing. Qed.
Print Assumptions C74_no_data.
(** Refused: a variable that one of the files has not got, a text that is not a number. *)
Theorem C74_missing : forall float_of stamp variable pre f post names, plain_variable variable -> (forall g, In g pre -> readable float_of stamp variable g) -> header_ok f -> column_names f names -> ~ In variable names ->
  read_aeronet float_of stamp (map fst (pre ++ f :: post)) variable = Raises InvalidVariableError.
Proof. exact sun_missing. Qed.
Print Assumptions C74_missing.
Theorem C74_not_a_number : forall float_of stamp variable pre f post names, plain_variable variable -> (forall g, In g pre -> readable float_of stamp variable g) -> header_ok f -> well_formed float_of stamp f names ->
  (exists line s, In line (data_lines f) /\ field names line variable s /\ ~ is_number_text float_of s) ->
  read_aeronet float_of stamp (map fst (pre ++ f :: post)) variable = Raises InvalidVariableError.
Proof. exact sun_bad. Qed.
Print Assumptions C74_not_a_number.
(** The variables offered: the columns of any of the files. *)
Theorem C74_names : forall files l, (forall f, In f files -> file_version (fst f) (snd f)) -> aeronet_names (map fst files) = Ok l -> forall n, In n l <-> exists f names, In f files /\ column_names f names /\ In n names.
Proof. exact sun_names_ok. Qed.
Print Assumptions C74_names.

(** *** examples *)
Definition floats : list (string * Q) := [("0.25", 1 # 4); ("0.5", 1 # 2); ("7", 7); ("8", 8); ("-999.", -(999)); ("-15.7", -(157 # 10)); ("10.5", 21 # 2); ("100", 100); ("20", 20); ("30", 30)]%Q.
Definition float_ex (s : str) : option Q := option_map snd (find (fun e => str_eqb (lit (fst e)) s) floats).
Definition stamps : list (string * string * Q) := [("01:01:2000", "00:00:00", 1); ("01:01:2000", "06:00:00", 5 # 4); ("02:01:2000", "00:00:00", 2)]%Q.
Definition stamp_ex (d t : str) : option Q := option_map snd (find (fun e => str_eqb (lit (fst (fst e))) d && str_eqb (lit (snd (fst e))) t) stamps).
Definition v3 : afile := (map lit ["AERONET Version 3;"; "x"; "x"; "x"; "x"; "x"; "Date(dd:mm:yyyy),Time(hh:mm:ss),AOD_500nm,Site_Latitude(Degrees),Site_Longitude(Degrees),Site_Elevation(m),Other";
  "01:01:2000,00:00:00,0.25,7,8,100,0.5"; "01:01:2000,06:00:00,-999.,7,8,100"], Aeronet3).
Definition v2 : afile := (map lit ["Level 2.0"; "Version 2 Direct Sun Algorithm"; "Location=Here,long=10.5,lat=-15.7,elev=100,Nmeas=3"; "x"; "Date(dd:mm:yy),Time(hh:mm:ss),AOD_500nm";
  "02:01:2000,00:00:00,0.5"; " "; "01:01:2000,06:00:00,N/A"], Aeronet2).
Definition man : afile := (map lit ["Maritime Aerosol Network"; "x"; "x"; "x"; "Date(dd:mm:yyyy),Time(hh:mm:ss),Latitude,Longitude,AOD_500nm"; "01:01:2000,06:00:00,20,30,0.5"], Man2).
Definition empty_man : afile := (map lit ["Maritime Aerosol Network"; "x"; "x"; "x"; "Date(dd:mm:yyyy),Time(hh:mm:ss),Latitude,Longitude,AOD_500nm"], Man2).
Definition aod : str := lit "AOD_500nm".
Lemma version_ex f : get_version (fst f) = Ok (snd f) -> file_version (fst f) (snd f).
Proof. apply version_of. Qed.
Example C74_ex_readable : forall f, In f [v3; v2; man; empty_man] -> readable float_ex stamp_ex aod f.
Proof.
  intros f Hf. split.
  - cbn [In] in Hf. destruct Hf as [<-|[<-|[<-|[<-|[]]]]]; (apply header_okb; [apply version_ex|]; vm_compute; reflexivity).
  - destruct Hf as [<-|[<-|[<-|[<-|[]]]]]; [right|right|right|left; cbn; lia]; (eexists; split; [apply checkb_ok; [apply version_ex; vm_compute; reflexivity|vm_compute; reflexivity|vm_compute; reflexivity]|]);
      (apply numbersb_ok; [apply SunProofs.nodups_iff; vm_compute; reflexivity|vm_compute; reflexivity]).
Qed.
Example C74_ex_plain : plain_variable aod /\ all_lines [v3; v2; man; empty_man] <> [].
Proof. split; [intros H; cbn [In] in H; repeat (destruct H as [H|H]; [discriminate H|]); exact H|vm_compute; discriminate]. Qed.
Example C74_ex_rows : exists d, read_aeronet float_ex stamp_ex (map fst [v3; v2; man; empty_man]) aod = Ok d /\
  rows d = [([Some 8; Some 7; Some 100; Some 1], Some (1 # 4)); ([Some 8; Some 7; Some 100; Some (5 # 4)], None); ([Some (21 # 2); Some (-(157 # 10)); Some 100; Some 2], Some (1 # 2)); ([Some (21 # 2); Some (-(157 # 10)); Some 100; Some (5 # 4)], None); ([Some 30; Some 20; Some 0; Some (5 # 4)], Some (1 # 2))]%Q.
Proof. eexists. split; vm_compute; reflexivity. Qed.
Example C74_ex_no_data : read_aeronet float_ex stamp_ex (map fst [empty_man]) aod = Raises KeyError /\ read_aeronet float_ex stamp_ex (map fst [v2; v3]) (lit "Other") = Raises InvalidVariableError.
Proof. split; vm_compute; reflexivity. Qed.
Example C74_ex_missing : header_ok v2 /\ (exists names, column_names v2 names /\ ~ In (lit "Other") names) /\ plain_variable (lit "Other").
Proof.
  split; [apply header_okb; [apply version_ex|]; vm_compute; reflexivity|]. split; [|intros H; cbn [In] in H; repeat (destruct H as [H|H]; [discriminate H|]); exact H].
  eexists. split; [apply vars_column_names; [apply version_ex; vm_compute; reflexivity|vm_compute; reflexivity|discriminate]|]. apply SunProofs.isin_not. vm_compute. reflexivity.
Qed.
Definition words : afile := (map lit ["Maritime Aerosol Network"; "x"; "x"; "x"; "Date(dd:mm:yyyy),Time(hh:mm:ss),Latitude,Longitude,AOD_500nm"; "01:01:2000,06:00:00,20,30,none"], Man2).
Example C74_ex_not_a_number : header_ok words /\ exists names, well_formed float_ex stamp_ex words names /\ (exists line s, In line (data_lines words) /\ field names line aod s /\ ~ is_number_text float_ex s).
Proof.
  split; [apply header_okb; [apply version_ex|]; vm_compute; reflexivity|]. eexists. split; [apply checkb_ok; [apply version_ex; vm_compute; reflexivity|vm_compute; reflexivity|vm_compute; reflexivity]|].
  exists (lit "01:01:2000,06:00:00,20,30,none"), (lit "none"). split; [left; reflexivity|]. split.
  - exists (lit "01:01:2000,06:00:00,20,30,none"), (map lit ["01:01:2000"; "06:00:00"; "20"; "30"; "none"]), 4. split; [reflexivity|]. split; [apply pieces_iff; vm_compute; reflexivity|]. split; reflexivity.
  - intros [H|(q & H)]; [apply SunProofs.isin_iff in H; vm_compute in H; discriminate|vm_compute in H; discriminate].
Qed.

(** Not every line of data comes back in all files: one with a blank line in its header loses the first, and lines of more fields than there are columns (as when there were more wavelengths than at the first observation) are left out. *)
Definition blank_in_header : afile := (map lit ["Maritime Aerosol Network"; "x"; ""; "x"; "Date(dd:mm:yyyy),Time(hh:mm:ss),Latitude,Longitude,AOD_500nm"; "01:01:2000,06:00:00,20,30,0.5"; "02:01:2000,00:00:00,20,30,0.25"], Man2).
Definition more_fields : afile := (map lit ["Maritime Aerosol Network"; "x"; "x"; "x"; "Date(dd:mm:yyyy),Time(hh:mm:ss),Latitude,Longitude,AOD_500nm,Number,Exact_Wavelengths_for_Input_AOD(um)";
  "01:01:2000,06:00:00,20,30,0.5,1,7"; "02:01:2000,00:00:00,20,30,0.25,2,7,8"], Man2).
Theorem C74_refuted : exists f g, (forall h, In h [f; g] -> length (data_lines h) = 2 /\ file_version (fst h) (snd h) /\ exists d, read_aeronet float_ex stamp_ex [fst h] aod = Ok d /\ length (rows d) = 1) /\
  (exists l, In l (firstn (lines_before (snd f)) (fst f)) /\ blank l) /\ (forall l, In l (firstn (S (lines_before (snd g))) (fst g)) -> ~ blank l).
Proof.
  exists blank_in_header, more_fields. split; [|split].
  - intros h [<-|[<-|[]]]; (split; [reflexivity|]; split; [apply version_ex; vm_compute; reflexivity|]; eexists; split; vm_compute; reflexivity).
  - exists []. split; [right; right; left; reflexivity|constructor].
  - apply (header_okb more_fields); [apply version_ex; vm_compute; reflexivity|vm_compute; reflexivity].
Qed.
Print Assumptions C74_refuted.
