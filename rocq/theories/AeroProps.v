(** C51 Aeronet column names are unique. *)
From Coq Require Import String.
From Verif Require Import Base PyStr QBase DistModel DateModel AeroModel AeroSpec AeroProofs.
From Coq Require Import List Ascii Lia.
Import ListNotations.
Open Scope string_scope. Open Scope list_scope. Open Scope nat_scope. Notation length := List.length.

(** The version of a file is found from its first two lines. *)
Theorem C51_version : forall lines v, get_version lines = Ok v <-> file_version lines v.
Proof. exact version_of. Qed.
Print Assumptions C51_version.
(** One name per column, in their order; a repeated one with its number. *)
Theorem C51_names : forall lines v before first second rest cs, file_version lines v -> lines = before ++ first :: second :: rest -> length before = lines_before v -> file_columns first second cs ->
  exists names, get_file_variables lines = Ok names /\ length names = length cs /\ forall i c, nth_error cs i = Some c -> exists s, nth_error names i = Some s /\ named cs i c s.
Proof. exact file_names. Qed.
Print Assumptions C51_names.
(** They are distinct if the columns cannot be taken for each other. *)
Theorem C51_partial : forall lines v before first second rest cs, file_version lines v -> lines = before ++ first :: second :: rest -> length before = lines_before v -> file_columns first second cs ->
  no_clash cs -> exists names, get_file_variables lines = Ok names /\ NoDup names.
Proof. exact file_names_distinct. Qed.
Print Assumptions C51_partial.
Definition file (header data : string) : list str := map lit ["AERONET Version 3; SDA"; "x"; "x"; "x"; "x"; "x"; header; data].
(** In general they are not: a number makes the name of another column, characters not allowed were all there was between two names, or two columns have the same standard name. *)
Theorem C51_refuted : exists h1 h2 h3, Forall (fun h => exists names, get_file_variables (file h "1,2,3") = Ok names /\ ~ NoDup names) [h1; h2; h3] /\
  get_file_variables (file h1 "1,2,3") = Ok [lit "X0"; lit "X1"; lit "X0"] /\ get_file_variables (file h2 "1,2,3") = Ok [lit "AB"; lit "AB"] /\ get_file_variables (file h3 "1,2,3") = Ok [lit "date"; lit "date"].
Proof.
  exists "X,X,X0", "A B,A+B", "Date(dd:mm:yy),Date_(dd-mm-yyyy)". split; [|repeat split; vm_compute; reflexivity]. repeat apply Forall_cons; try apply Forall_nil; eexists; (split; [vm_compute; reflexivity|]); intros N; repeat match goal with N : NoDup (_ :: _) |- _ => apply NoDup_cons_iff in N; destruct N as [? N] end; cbn in *; intuition.
Qed.
Print Assumptions C51_refuted.
(** a header with columns of an SDA file *)
Definition some_header : string := "Date_(dd:mm:yyyy),Time_(hh:mm:ss),AOD_500nm[tau_a],AE-Fine,Site_Latitude(Degrees),Number,Exact_Wavelengths_for_Input_AOD(um)".
Example C51_case : exists cs, file_columns (lit some_header) (lit "01:01:2000,00:00:00,0.1,0.2,0.3,3,0.5,0.6,0.7") cs /\ no_clash cs /\
  get_file_variables (file some_header "01:01:2000,00:00:00,0.1,0.2,0.3,3,0.5,0.6,0.7") =
  Ok (map lit ["date"; "time"; "AOD_500nmtau_a"; "AE-Fine"; "latitude"; "Number"; "Exact_Wavelengths_for_Input_AOD(um)0"; "Exact_Wavelengths_for_Input_AOD(um)1"; "Exact_Wavelengths_for_Input_AOD(um)2"]).
Proof. eexists. split; [apply columns_of; vm_compute; reflexivity|]. split; [apply clash_free_ok; vm_compute; reflexivity|]. vm_compute. reflexivity. Qed.
