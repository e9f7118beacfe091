(** Property C01 - OrderedSet behaves like a set that remembers insertion order. *)
From Verif Require Import Base OSetModel OSetSpec OSetProofs.

(** Any history of add / discard / pop(last=True|False) calls on an empty OrderedSet gives the same outputs as the
    same history on a duplicate-free list kept in insertion order, and afterwards iteration, reversed iteration,
    [len] and membership are those of that list. *)
Theorem C01_ordered_set_refines_insertion_list :
  forall (K : Type) (keq : forall a b : K, {a = b} + {a <> b}) (os : list (op K)),
  let (s, outs) := run keq empty os in
  let (l, souts) := spec_run keq [] os in
  outs = souts /\ oiter s = Some l /\ oreversed s = Some (rev l) /\ olen s = length l
  /\ NoDup l /\ forall k, ocontains keq s k = true <-> In k l.
Proof. exact (fun K keq os => oset_refines keq os). Qed.
Print Assumptions C01_ordered_set_refines_insertion_list.

Example C01_example :
  let (s, outs) := run Nat.eq_dec empty [Add 3; Add 1; Add 3; Add 2; Discard 1; Pop true; Pop false; Pop true; Add 7] in
  outs = [None; None; None; None; None; Some (Ok 2); Some (Ok 3); Some (Raises KeyError); None]
  /\ oiter s = Some [7] /\ oreversed s = Some [7] /\ olen s = 1 /\ ocontains Nat.eq_dec s 3 = false.
Proof. vm_compute. repeat split. Qed.
