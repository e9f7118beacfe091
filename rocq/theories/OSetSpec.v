(** Specification for C01: an insertion-ordered set is a list without repetitions, oldest first.
    Written without reference to the linked-list model (only the names of the calls are shared). *)
From Verif Require Import Base OSetModel.

Section Spec.
Context {K : Type}.
Variable keq : forall a b : K, {a = b} + {a <> b}.

Definition spec_add (l : list K) (k : K) : list K := if in_dec keq k l then l else l ++ [k].
Definition spec_discard (l : list K) (k : K) : list K := remove keq k l.
Definition spec_pop (l : list K) (last : bool) : res K * list K :=
  if last then
    match rev l with [] => (Raises KeyError, l) | k :: r => (Ok k, rev r) end
  else
    match l with [] => (Raises KeyError, l) | k :: r => (Ok k, r) end.
Definition spec_step (l : list K) (o : op K) : list K * option (res K) :=
  match o with
  | Add k => (spec_add l k, None)
  | Discard k => (spec_discard l k, None)
  | Pop b => let '(r, l') := spec_pop l b in (l', Some r)
  end.
Fixpoint spec_run (l : list K) (os : list (op K)) : list K * list (option (res K)) :=
  match os with
  | [] => (l, [])
  | o :: os' => let '(l1, r) := spec_step l o in let '(l2, rs) := spec_run l1 os' in (l2, r :: rs)
  end.
End Spec.
