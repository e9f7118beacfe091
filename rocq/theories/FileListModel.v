(** Models of [expand_filelist] (cis/data_io/data_reader.py:10-45), [expand_file_list] (cis/parse.py:268-293) and the
    key=value option parser (cis/utils.py:275-307). *)
From Verif Require Import Base PyStr OSetModel.

(** What the code asks of the operating system ([glob.glob], [os.path.isdir], [os.listdir], [os.path.isfile],
    [os.path.join]).  Quantified over in the theorems. *)
Record filesystem := mkFS {
  fs_glob : str -> list str;
  fs_isdir : str -> bool;
  fs_listdir : str -> list str;
  fs_isfile : str -> bool;
  fs_join : str -> str -> str
}.

(** data_reader.py:30: [any(wildcard in element for wildcard in ['*', '?', ']', '}'])] *)
Definition has_wildcard (e : str) : bool :=
  has_char "*"%char e || (has_char "?"%char e || (has_char "]"%char e || has_char "}"%char e)).

Definition oadd := @add str str_eq_dec.

(** data_reader.py:29-44, one turn of the loop on the OrderedSet [file_set]. *)
Definition expand_element (fs : filesystem) (file_set : oset str) (element : str) : res (oset str) :=
  if has_wildcard element then
    Ok (fold_left oadd (str_sort (fs_glob fs element)) file_set)
  else if fs_isdir fs element then
    Ok (fold_left (fun st a_file =>
                     let full_file := fs_join fs element a_file in
                     if fs_isfile fs full_file then oadd st full_file else st)
                  (str_sort (fs_listdir fs element)) file_set)
  else if fs_isfile fs element then Ok (oadd file_set element)
  else Raises ValueError.

Fixpoint expand_loop (fs : filesystem) (file_set : oset str) (els : list str) : res (oset str) :=
  match els with
  | [] => Ok file_set
  | e :: els' => bind (expand_element fs file_set e) (fun st => expand_loop fs st els')
  end.

(** data_reader.py:27-45 for a list of elements; [list(file_set)] iterates the OrderedSet.
    The [None] branch of the iterator (fuel exhausted) is mapped to [OutOfFuel]; the theorems exclude it. *)
Definition expand_filelist (fs : filesystem) (els : list str) : res (list str) :=
  bind (expand_loop fs empty els)
       (fun st => match oiter st with Some l => Ok l | None => Raises OutOfFuel end).

(** data_reader.py:22-23: a string argument is split on commas first. *)
Definition expand_filelist_string (fs : filesystem) (s : str) : res (list str) :=
  expand_filelist fs (split_on "," s).

(** parse.py:268-293 for a string of file names ([parser.error] never returns). *)
Definition expand_file_list (fs : filesystem) (filenames : str) : res (list str) :=
  match filenames with
  | [] => Raises ParserError
  | _ =>
      match expand_filelist_string fs filenames with
      | Raises ValueError => Raises ParserError
      | Raises e => Raises e
      | Ok [] => Raises ParserError
      | Ok l => Ok l
      end
  end.

(** Value of an option: text, or [True] when there is no '=' (utils.py:304). *)
Inductive optval := VStr (s : str) | VTrue.

(** Python dict as an association list in insertion order; assignment to an existing key replaces in place. *)
Fixpoint dict_set {V} (d : list (str * V)) (k : str) (v : V) : list (str * V) :=
  match d with
  | [] => [(k, v)]
  | (k', v') :: d' => if str_eq_dec k' k then (k', v) :: d' else (k', v') :: dict_set d' k v
  end.
Fixpoint dict_get {V} (d : list (str * V)) (k : str) : option V :=
  match d with
  | [] => None
  | (k', v) :: d' => if str_eq_dec k' k then Some v else dict_get d' k
  end.

(** utils.py:300-306, loop body. *)
Definition key_val_step (d : list (str * optval)) (element : str) : list (str * optval) :=
  let key_value := split_on "=" element in
  let key := nth 0 key_value [] in
  let value := if 1 <? length key_value then VStr (nth 1 key_value []) else VTrue in
  dict_set d key value.

(** utils.py:290-307 *)
Definition parse_key_val_list (input_list : list str) : list (str * optval) :=
  fold_left key_val_step input_list [].

(** utils.py:275-286 *)
Definition parse_key_val_string (arguments : str) (separator : ascii) : list (str * optval) :=
  parse_key_val_list (split_on separator arguments).
