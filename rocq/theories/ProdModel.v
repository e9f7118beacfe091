(** Finding the product (or kernel) classes and choosing one, cis/plugin.py and cis/data_io/products/AProduct.py:135-183, cis/collocation/col_framework.py:244-285. *)
From Verif Require Import Base PyStr.
Open Scope string_scope. Open Scope list_scope. Open Scope nat_scope.

(** A class: its identity, [__name__], priority, whether it can be instantiated (no abstract method left), the regular expressions of get_file_signature, and
    whether get_file_type_error reports an error for a file. *)
Record pclass := mkClass { c_id : nat; c_name : str; c_priority : Z; c_concrete : bool; c_signature : list str; c_error : str -> bool }.
(** a class with its direct subclasses, in the order of [__subclasses__()] (after all imports) *)
Inductive ctree := Node (c : pclass) (subs : list ctree).
Definition root (t : ctree) : pclass := match t with Node c _ => c end.
(** plugin.py:4-20 *)
Fixpoint get_all_subclasses (t : ctree) : list pclass := match t with Node _ subs => flat_map get_all_subclasses subs ++ map root subs end.

Fixpoint starts_with (p s : str) : bool :=
  match p, s with [], _ => true | _, [] => false | a :: p, b :: s => if ascii_dec a b then starts_with p s else false end.
Definition ends_with (p s : str) : bool := starts_with (rev p) (rev s).
(** plugin.py:36-42 *)
Definition is_plugin_file (f : str) : bool := negb (ends_with (lit ".pyc") (lower f) || ends_with (lit "__init__.py") (lower f)) && ends_with (lit ".py") f.
(** plugin.py:23-60: the files of the plugin directory in os.listdir's order, each with the classes of its module and whether the parent class' name occurs in the name
    of the first base.  [None]: no plugin directory, or not readable.  Line 58 assigns the list anew for every file. *)
Definition find_plugins (dir : option (list (str * list (pclass * bool)))) : list pclass :=
  match dir with
  | None => []
  | Some files => fold_left (fun _ f => map fst (filter snd (snd f))) (filter (fun f => is_plugin_file (fst f)) files) []
  end.
Definition is_abstract (c : pclass) : bool := starts_with (lit "abstract") (c_name c) || starts_with (lit "Abstract") (c_name c).
(** [l.remove(x)]: the first equal element; classes are equal if identical *)
Fixpoint remove_first (c : pclass) (l : list pclass) : list pclass :=
  match l with [] => [] | x :: l => if c_id x =? c_id c then l else x :: remove_first c l end.
(** plugin.py:74-76: a for loop over the list (by position) that removes elements from it; it makes at most as many steps as the list has elements *)
Fixpoint removal_loop (steps i : nat) (l : list pclass) : list pclass :=
  match steps with
  | O => l
  | S steps => match nth_error l i with
               | None => l
               | Some c => removal_loop steps (S i) (if is_abstract c then remove_first c l else l)
               end
  end.
(** Python's sorted: stable *)
Fixpoint insert_by {A} (le : A -> A -> bool) (x : A) (l : list A) : list A :=
  match l with [] => [x] | y :: l => if le x y then x :: y :: l else y :: insert_by le x l end.
Definition sort_by {A} (le : A -> A -> bool) (l : list A) : list A := fold_right (insert_by le) [] l.
(** plugin.py:63-83 *)
Definition find_plugin_classes (dir : option (list (str * list (pclass * bool)))) (parent : ctree) : list pclass :=
  let all_classes := find_plugins dir ++ get_all_subclasses parent in
  sort_by (fun a b => str_leb (c_name a) (c_name b)) (removal_loop (length all_classes) 0 all_classes).

(** os.path.basename: what follows the last slash *)
Definition basename (f : str) : str := last (split_on "/"%char f) [].
Section Match.
(** [re.match(pattern, string, re.I)] is not None *)
Variable re_match : str -> str -> bool.
(** AProduct.py:162-170: the patterns are tried in turn; the file is checked at each match *)
Fixpoint accepts (c : pclass) (filename : str) (patterns : list str) : bool :=
  match patterns with
  | [] => false
  | p :: ps => if re_match (p ++ lit "$") (basename filename) then if negb (c_error c filename) then true else accepts c filename ps else accepts c filename ps
  end.
(** 158-178; instantiating a class with abstract methods is a TypeError *)
Fixpoint choose (filename : str) (product : option str) (l : list pclass) : res (option pclass) :=
  match l with
  | [] => Ok None
  | c :: l =>
    match product with
    | None => if negb (c_concrete c) then Raises TypeError else if accepts c filename (c_signature c) then Ok (Some c) else choose filename product l
    | Some p => if str_eqb p (c_name c) then Ok (Some c) else choose filename product l
    end
  end.
(** 135-183; the error message instantiates every class *)
Definition get_class (classes : list pclass) (filename : str) (product : option str) : res pclass :=
  let sorted := sort_by (fun a b => (c_priority b <=? c_priority a)%Z) classes in
  bind (choose filename product sorted) (fun r =>
    match r with
    | Some c => Ok c
    | None => if forallb c_concrete sorted then Raises ClassNotFoundError else Raises TypeError
    end).
Definition product_class dir parent filename product := get_class (find_plugin_classes dir parent) filename product.
End Match.
(** col_framework.py:244-285: the first class of that name; no default *)
Definition get_kernel (classes : list pclass) (method : option str) : res pclass :=
  match find (fun c => match method with Some m => str_eqb m (c_name c) | None => false end) classes with Some c => Ok c | None => Raises ValueError end.
