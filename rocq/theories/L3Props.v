(** C81: the time a cube of an ESA CCI Level 3 file covers. *)
From Coq Require Import String.
From Verif Require Import Base PyStr QBase DateModel DateSpec AeroSpec CciModel L3Model L3Spec L3Proofs.
From Coq Require Import List.
Import ListNotations.
Open Scope string_scope. Open Scope list_scope. Open Scope Z_scope. Notation length := List.length.

(** A cube whose attributes say when its coverage starts and ends is read with exactly those bounds of its time; a cloud cube keeps its own time, an aerosol cube gets the time half-way.
    The attributes that became bounds, and with several files those that differ between files, go; all others stay. *)
Theorem C81_partial : forall k several units fname c sa sb a b, att c (lit "time_coverage_start") = Some sa -> att c (lit "time_coverage_end") = Some sb -> stamp sa a -> stamp sb b -> time_there k c ->
  exists c', l3_callback k several units fname c = Ok c' /\
    match k with
    | Cloud => exists p, option_map fst (q_time c) = Some [p] /\ q_time c' = Some ([p], Some (units a, units b))
    | Aerosol => exists m x y, q_time c' = Some ([m], Some (x, y)) /\ (x == hours_since_1970 a)%Q /\ (y == hours_since_1970 b)%Q /\ (m * 2 == x + y)%Q
    end /\ forall n, (goes k several n -> att c' n = None) /\ (~ goes k several n -> att c' n = att c n).
Proof. exact covered. Qed.
Print Assumptions C81_partial.
(** A time stamp is the moment it says, the 44th of a month being its last day. *)
Theorem C81_stamp : forall units s t, stamp s t -> convert_time_string_to_number units s = Ok (units t).
Proof. exact converted. Qed.
Print Assumptions C81_stamp.
(** Without the attributes a file is not read. *)
Theorem C81_missing : forall k several units fname c, time_there k c -> (att c (lit "time_coverage_start") = None \/ exists sa a, att c (lit "time_coverage_start") = Some sa /\ stamp sa a /\ att c (lit "time_coverage_end") = None) ->
  l3_callback k several units fname c = Raises KeyError.
Proof. exact missing_stamp. Qed.
Print Assumptions C81_missing.
(** The file that is known to have wrong stamps, and whose times are in the code, is never read: what should mend it fails itself. *)
Theorem C81_refuted : forall several units fname, mentions (lit "201101-ESACCI") fname -> l3_callback Aerosol several units fname bad_cube = Raises NameError.
Proof. exact known_file. Qed.
Print Assumptions C81_refuted.
(** Examples: the stamps of an ordinary day and of the end of a month; a cube of each kind *)
Example ex_stamps : stamp (lit "20110115T123000Z") (mkDT 2011 1 15 12 30 0) /\ stamp (lit "20120244T235959Z") (mkDT 2012 2 29 23 59 59).
Proof.
  split.
  - apply (a_day [2;0;1;1]%nat [0;1]%nat [1;5]%nat [1;2]%nat [3;0]%nat [0;0]%nat); [split; [reflexivity|repeat constructor]|repeat constructor; repeat constructor|reflexivity].
  - apply (month_end [2;0;1;2]%nat [0;2]%nat [2;3]%nat [5;9]%nat [5;9]%nat); try reflexivity; [split; [reflexivity|repeat constructor]|repeat constructor; repeat constructor|].
    exists (mkDT 2012 3 1 23 59 59). split; reflexivity.
Qed.
Definition day_cube (t : option (list Q * option (Q * Q))) : l3cube :=
  mkL3 [(lit "id", lit "x"); (lit "title", lit "CCI"); (lit "time_coverage_start", lit "19700102T000000Z"); (lit "time_coverage_end", lit "19700144T120000Z")] t.
Example ex_aerosol : match l3_callback Aerosol true (fun _ => 0%Q) (lit "f.nc") (day_cube None) with
  Ok c => q_attrs c = [(lit "title", lit "CCI")] /\ option_map (fun t => (map Qred (fst t), option_map (fun b => (Qred (fst b), Qred (snd b))) (snd t))) (q_time c) = Some ([378%Q], Some (24%Q, 732%Q)) | Raises _ => False end.
Proof. vm_compute. split; reflexivity. Qed.
Example ex_cloud : match l3_callback Cloud false hours_since_1970 (lit "f.nc") (day_cube (Some ([36%Q], None))) with
  Ok c => map fst (q_attrs c) = [lit "id"; lit "title"] /\ option_map (fun t => (map Qred (fst t), option_map (fun b => (Qred (fst b), Qred (snd b))) (snd t))) (q_time c) = Some ([36%Q], Some (24%Q, 732%Q)) | Raises _ => False end.
Proof. vm_compute. split; reflexivity. Qed.
Example ex_there : time_there Cloud (day_cube (Some ([36%Q], None))) /\ att (day_cube None) (lit "time_coverage_start") = Some (lit "19700102T000000Z").
Proof. split; [exists 36%Q, None; reflexivity|reflexivity]. Qed.
