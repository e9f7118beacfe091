(** C82: points read from text files. *)
From Coq Require Import String.
From Verif Require Import Base PyStr QBase DateModel UngrModel UngrSpec CciSpec TxtModel TxtSpec TxtProofs.
From Coq Require Import List Ascii.
Import ListNotations.
Open Scope string_scope. Open Scope list_scope. Open Scope nat_scope. Notation length := List.length.

(** Files of two observations or more each, of five fields, are read: one row for each line, in order, file after file, with the numbers of its own line and the moment of its time;
    those without a complete position are left out.  Whichever variable is asked for. *)
Theorem C82_partial : forall number moment files oss name, files <> [] -> Forall2 observations files oss -> Forall (fun os => Forall (complete moment) os /\ 2 <= length os) oss ->
  exists d raw, read_txt number moment files name = Ok d /\ map c_std (u_coords d) = four /\ Forall2 (says number moment) (concat oss) raw /\ rows d = filter located raw.
Proof. exact read_ok. Qed.
Print Assumptions C82_partial.
(** As sample points, without a variable: the same rows. *)
Theorem C82_points : forall number moment files oss name d, files <> [] -> Forall2 observations files oss -> Forall (fun os => Forall (complete moment) os /\ 2 <= length os) oss -> read_txt number moment files name = Ok d -> read_txt_coords number moment files = Ok (u_coords d).
Proof. exact points_ok. Qed.
Print Assumptions C82_points.
(** A file without observations, or with another number of fields in some line, is refused with an I/O error, whatever other files follow. *)
Theorem C82_columns : forall number moment pre f post oss os name, Forall2 observations pre oss -> Forall (fun os => Forall (complete moment) os /\ os <> []) oss -> observations f os ->
  (os = [] \/ exists fs, In fs os /\ length fs <> 5) -> read_txt number moment (pre ++ f :: post) name = Raises OSError.
Proof. exact wrong_columns. Qed.
Print Assumptions C82_columns.
(** Refuted: a file of a single observation is never read, nor can its coordinates be used as sample points ... *)
Theorem C82_refuted : forall number moment f fs name, observations f [fs] -> complete moment fs -> read_txt number moment [f] name = Raises TypeError /\ read_txt_coords number moment [f] = Raises TypeError.
Proof. exact single. Qed.
Print Assumptions C82_refuted.
(** ... and it spoils any number of other files. *)
Theorem C82_refuted_many : forall number moment files oss name, 2 <= length files -> Forall2 observations files oss -> Forall (fun os => Forall (complete moment) os /\ os <> []) oss -> (exists fs, In [fs] oss) ->
  read_txt number moment files name = Raises ValueError.
Proof. exact single_of_many. Qed.
Print Assumptions C82_refuted_many.
(** Examples *)
Definition digit1 (s : str) : option Q := match s with [c] => if (48 <=? nat_of_ascii c) && (nat_of_ascii c <=? 57) then Some (inject_Z (Z.of_nat (nat_of_ascii c - 48))) else None | _ => None end.
Definition noon (s : str) : option datetime := if str_eqb s (lit "noon") then Some (mkDT 1600 1 3 12 0 0) else None.
Definition small_file : list str := [lit "# a comment"; lit "1,2,3,noon,4 # first"; lit ""; lit "  5,6,,noon,7"; lit "7,8,9,noon,"].
Ltac nin := let I := fresh in cbn; intros I; repeat (destruct I as [I|I]; [discriminate I|]); destruct I.
Example ex_fields : observations small_file [[lit "1"; lit "2"; lit "3"; lit "noon"; lit "4"]; [lit "5"; lit "6"; []; lit "noon"; lit "7"]; [lit "7"; lit "8"; lit "9"; lit "noon"; []]].
Proof.
  assert (B : forall a s z, ~ In a [" "; "013"; "010"]%char -> ~ In z [" "; "013"; "010"]%char -> bare (a :: s ++ [z])).
  { intros a s z A Z c r [H|H]; [injection H as <- _; exact A|]. change (a :: s ++ [z]) with ((a :: s) ++ [z]) in H. apply app_inj_tail in H. destruct H as [_ <-]. exact Z. }

  apply skipped; [exists [], (lit "# a comment"); split; [reflexivity|]; split; [constructor|right; eexists; reflexivity]|].
  apply observed; [discriminate| |].
  { exists [], (lit " "), (lit "# first"), (lit "1,2,3,noon,4"). repeat split; try reflexivity; try discriminate; [constructor|repeat constructor|right; eexists; reflexivity| |].
    - apply (B "1"%char (lit ",2,3,noon,") "4"%char); nin.
    - repeat constructor; nin. }
  apply skipped; [exists [], []; split; [reflexivity|]; split; [constructor|left; reflexivity]|].
  apply observed; [discriminate| |].
  { exists (lit "  "), [], [], (lit "5,6,,noon,7"). repeat split; try reflexivity; try discriminate; [repeat constructor|constructor|left; reflexivity| |].
    - apply (B "5"%char (lit ",6,,noon,") "7"%char); nin.
    - repeat constructor; nin. }
  apply observed; [discriminate| |constructor].
  exists [], [], [], (lit "7,8,9,noon,"). repeat split; try reflexivity; try discriminate; [constructor|constructor|left; reflexivity| |].
  - apply (B "7"%char (lit ",8,9,noon") ","%char); nin.
  - repeat constructor; nin.
Qed.
Example ex_read : match read_txt digit1 noon [small_file; small_file] (lit "value") with
  Ok d => map (fun r => (map (option_map Qred) (fst r), snd r)) (rows d) = [([Some 1; Some 2; Some 3; Some (5 # 2)], Some 4); ([Some 7; Some 8; Some 9; Some (5 # 2)], None); ([Some 1; Some 2; Some 3; Some (5 # 2)], Some 4); ([Some 7; Some 8; Some 9; Some (5 # 2)], None)]%Q | Raises _ => False end.
Proof. vm_compute. reflexivity. Qed.
Example ex_single : read_txt digit1 noon [[lit "1,2,3,noon,4"]] (lit "value") = Raises TypeError.
Proof. vm_compute. reflexivity. Qed.
