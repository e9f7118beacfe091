(** Properties C03 (input file lists) and C04 (key=value options). *)
From Verif Require Import Base PyStr FileListModel FileListSpec FileListProofs.

(** [expand_filelist] raises ValueError exactly when some non-wildcard element is neither file nor directory; otherwise
    the result is the concatenation of what each element expands to (sorted inside wildcards and directories), with
    first occurrences kept in order; it has no duplicates and holds exactly the selected paths. *)
Theorem C03_expand_filelist : forall fs els,
  match expand_filelist fs els with
  | Ok files =>
      (forall e, In e els -> ~ invalid_element fs e)
      /\ (exists parts, Forall2 (expansion fs) els parts /\ first_occurrences (concat parts) files)
      /\ NoDup files
      /\ forall p, In p files <-> exists e, In e els /\ selects fs e p
  | Raises x => x = ValueError /\ exists e, In e els /\ invalid_element fs e
  end.
Proof. exact expand_filelist_correct. Qed.
Print Assumptions C03_expand_filelist.

(** Only files are returned, provided wildcards match files only. *)
Theorem C03_only_files_partial : forall fs els files,
  (forall e p, In e els -> is_wild e -> In p (fs_glob fs e) -> fs_isfile fs p = true) ->
  expand_filelist fs els = Ok files -> forall p, In p files -> fs_isfile fs p = true.
Proof. exact expand_filelist_files. Qed.
Print Assumptions C03_only_files_partial.

(** Finding: a wildcard that matches a directory puts the directory itself in the "flat list of files". *)
Theorem C03_only_files_refuted :
  exists fs els files p, expand_filelist fs els = Ok files /\ In p files /\ fs_isfile fs p = false /\ fs_isdir fs p = true.
Proof. exact expand_filelist_returns_directory. Qed.
Print Assumptions C03_only_files_refuted.

(** The command-line wrapper returns the same list, and errors exactly on an empty argument, an invalid element or an
    empty result. *)
Theorem C03_command_line_file_list : forall fs s,
  match expand_file_list fs s with
  | Ok files => files <> [] /\ expand_filelist fs (split_on "," s) = Ok files
  | Raises x => x = ParserError
       /\ (s = [] \/ (exists e, In e (split_on "," s) /\ invalid_element fs e)
                  \/ (forall e p, In e (split_on "," s) -> ~ selects fs e p))
  end.
Proof. exact expand_file_list_correct. Qed.
Print Assumptions C03_command_line_file_list.

Definition example_fs : filesystem :=
  mkFS (fun _ => [lit "b"%string; lit "a"%string]) (fun p => str_eqb p (lit "d"%string))
       (fun _ => [lit "y"%string; lit "sub"%string; lit "x"%string])
       (fun p => negb (str_eqb p (lit "d/sub"%string)) && negb (str_eqb p (lit "none"%string)) && negb (str_eqb p (lit "d"%string)))
       (fun a b => a ++ "/"%char :: b).
Example C03_example :
  expand_filelist_string example_fs (lit "b,d,?,b"%string) =
    Ok [lit "b"%string; lit "d/x"%string; lit "d/y"%string; lit "a"%string]
  /\ expand_filelist_string example_fs (lit "b,none"%string) = Raises ValueError.
Proof. vm_compute. split; reflexivity. Qed.

(** Parsing gives each key at most once; the value of a key is that of its last mention, and a key is absent exactly when
    no element mentions it. *)
Theorem C04_last_mention_wins : forall l k,
  match dict_get (parse_key_val_list l) k with
  | Some v => exists l1 e l2, l = l1 ++ e :: l2 /\ mentions e k v /\ forall e' v', In e' l2 -> ~ mentions e' k v'
  | None => forall e v, In e l -> ~ mentions e k v
  end.
Proof. exact parse_key_val_get. Qed.
Print Assumptions C04_last_mention_wins.

Theorem C04_keys_unique : forall l, NoDup (map fst (parse_key_val_list l)).
Proof. exact parse_key_val_nodup. Qed.
Print Assumptions C04_keys_unique.

(** Every option string mentions exactly one key with one value (so nothing given is ignored). *)
Theorem C04_every_element_mentions_a_key : forall e, exists k v, mentions e k v.
Proof. exact mentions_total. Qed.
Print Assumptions C04_every_element_mentions_a_key.

Example C04_example :
  parse_key_val_string (lit "h_sep=10,missing,h_sep=5km,eq=a=b"%string) "," =
    [(lit "h_sep"%string, VStr (lit "5km"%string)); (lit "missing"%string, VTrue); (lit "eq"%string, VStr (lit "a"%string))].
Proof. vm_compute. reflexivity. Qed.
