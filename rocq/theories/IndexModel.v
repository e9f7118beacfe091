(** Models of the index iterators (cis/utils.py:430-449) and of numpy's [unravel_index]
    (used at cis/data_io/hyperpoint_view.py:229,287,305). *)
From Verif Require Import Base.

(** Python [idx[j] = v] on a list. *)
Fixpoint set_nth {A} (j : nat) (v : A) (l : list A) : list A :=
  match l, j with
  | [], _ => []
  | _ :: l', 0 => v :: l'
  | x :: l', S j' => x :: set_nth j' v l'
  end.

(** The inner loop, utils.py:444-448: [for j in range(dim - 1, -1, -1)]; the argument [j] is one more than
    the next index to process.  [idx[j] += 1; if idx[j] < shape[j]: break; idx[j] = 0]. *)
Fixpoint advance (j : nat) (idx shape : list nat) : list nat :=
  match j with
  | 0 => idx
  | S j' =>
      let v := nth j' idx 0 + 1 in
      if v <? nth j' shape 0 then set_nth j' v idx
      else advance j' (set_nth j' 0 (set_nth j' v idx)) shape
  end.

(** utils.py:437-440: [num_iterations *= shape[j]]. *)
Definition num_iterations (shape : list nat) : nat := fold_left (fun n s => n * s) shape 1.

(** utils.py:442-448: the outer loop, collecting what is yielded. *)
Fixpoint iterate (n : nat) (idx shape : list nat) : list (list nat) :=
  match n with
  | 0 => []
  | S n' => idx :: iterate n' (advance (length shape) idx shape) shape
  end.

Definition index_iterator (shape : list nat) : list (list nat) :=
  iterate (num_iterations shape) (repeat 0 (length shape)) shape.

(** numpy contract: [np.unravel_index(i, shape, order='C')]: successive remainders from the last dimension. *)
Fixpoint unravel_rev (i : nat) (rshape : list nat) : list nat :=
  match rshape with
  | [] => []
  | n :: r => (i mod n) :: unravel_rev (i / n) r
  end.
Definition unravel_index (i : nat) (shape : list nat) : res (list nat) :=
  if i <? num_iterations shape then Ok (rev (unravel_rev i (rev shape))) else Raises ValueError.
