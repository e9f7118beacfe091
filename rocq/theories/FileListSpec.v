(** Specifications for C03 and C04. *)
From Verif Require Import Base PyStr FileListModel.

(** A path is selected by an element (wildcard / directory / plain file). *)
Definition is_wild (e : str) : Prop := In "*"%char e \/ In "?"%char e \/ In "]"%char e \/ In "}"%char e.
Definition selects (fs : filesystem) (e p : str) : Prop :=
  (is_wild e /\ In p (fs_glob fs e))
  \/ (~ is_wild e /\ fs_isdir fs e = true /\ fs_isfile fs p = true
      /\ exists f, In f (fs_listdir fs e) /\ p = fs_join fs e f)
  \/ (~ is_wild e /\ fs_isdir fs e = false /\ fs_isfile fs e = true /\ p = e).

(** An element nothing can be made of. *)
Definition invalid_element (fs : filesystem) (e : str) : Prop :=
  ~ is_wild e /\ fs_isdir fs e = false /\ fs_isfile fs e = false.

(** The list without its repetitions, first occurrences kept in order. *)
Inductive first_occurrences : list str -> list str -> Prop :=
| fo_nil : first_occurrences [] []
| fo_new l p r : first_occurrences l r -> ~ In p l -> first_occurrences (l ++ [p]) (r ++ [p])
| fo_old l p r : first_occurrences l r -> In p l -> first_occurrences (l ++ [p]) r.

(** What one element contributes, in order: names sorted within a wildcard or a directory. *)
Inductive expansion (fs : filesystem) (e : str) : list str -> Prop :=
| ex_wild l : is_wild e -> Permutation l (fs_glob fs e) ->
    StronglySorted (fun a b => str_leb a b = true) l -> expansion fs e l
| ex_dir l : ~ is_wild e -> fs_isdir fs e = true -> Permutation l (fs_listdir fs e) ->
    StronglySorted (fun a b => str_leb a b = true) l ->
    expansion fs e (filter (fs_isfile fs) (map (fs_join fs e) l))
| ex_file : ~ is_wild e -> fs_isdir fs e = false -> fs_isfile fs e = true -> expansion fs e [e].

(** A mention of key [k] with value [v] in one option string: no '=' at all, or text up to the first '=' is the key and
    the text after it up to the next '=' (or the end) the value. *)
Definition mentions (e k : str) (v : optval) : Prop :=
  ~ In "="%char k /\
  match v with
  | VTrue => e = k
  | VStr w => ~ In "="%char w /\ (e = k ++ "="%char :: w \/ exists rest, e = k ++ "="%char :: w ++ "="%char :: rest)
  end.
