(** Model of [OrderedSet] (cis/utils.py:322-381): a doubly linked list of nodes
    [[key, prev, next]] closed through a sentinel node, plus a dict from key to node.
    Python's mutable 3-element lists are cells of an explicit heap. *)
From Verif Require Import Base.

Section OSet.
Context {K : Type}.
Variable keq : forall a b : K, {a = b} + {a <> b}.

Definition loc := nat.

(** A node [[key, prev, next]]; the sentinel's key is [None] (utils.py:328-329). *)
Record node := mkNode { nkey : option K; nprev : loc; nnext : loc }.

(** State: heap of nodes (total function; only allocated locations matter), next free location, and
    [self.map] as an association list with at most one entry per key.  [self.end] is location 0. *)
Record oset := mkOSet { heap : loc -> node; fresh : loc; omap : list (K * loc) }.

Definition end_ : loc := 0.

(** Python item assignments [n[1] = v] and [n[2] = v]. *)
Definition set_prev (h : loc -> node) (n v : loc) : loc -> node :=
  fun x => if Nat.eq_dec x n then mkNode (nkey (h x)) v (nnext (h x)) else h x.
Definition set_next (h : loc -> node) (n v : loc) : loc -> node :=
  fun x => if Nat.eq_dec x n then mkNode (nkey (h x)) (nprev (h x)) v else h x.
Definition alloc (h : loc -> node) (n : loc) (nd : node) : loc -> node :=
  fun x => if Nat.eq_dec x n then nd else h x.

(** dict operations on [self.map] *)
Fixpoint mlookup (k : K) (m : list (K * loc)) : option loc :=
  match m with
  | [] => None
  | (k', l) :: m' => if keq k k' then Some l else mlookup k m'
  end.
Fixpoint mremove (k : K) (m : list (K * loc)) : list (K * loc) :=
  match m with
  | [] => []
  | (k', l) :: m' => if keq k k' then m' else (k', l) :: mremove k m'
  end.

(** [__init__] with no iterable: utils.py:327-330. *)
Definition empty : oset :=
  mkOSet (fun _ => mkNode None end_ end_) 1 [].

(** [__len__], [__contains__]: utils.py:334-338. *)
Definition olen (s : oset) : nat := length (omap s).
Definition ocontains (s : oset) (k : K) : bool :=
  match mlookup k (omap s) with Some _ => true | None => false end.

(** [add]: utils.py:340-344.  The chained assignment stores the new node into [curr[2]], then [end[1]],
    then [self.map[key]], in that order. *)
Definition add (s : oset) (k : K) : oset :=
  match mlookup k (omap s) with
  | Some _ => s
  | None =>
      let curr := nprev (heap s end_) in
      let n := fresh s in
      let h1 := alloc (heap s) n (mkNode (Some k) curr end_) in
      let h2 := set_next h1 curr n in
      let h3 := set_prev h2 end_ n in
      mkOSet h3 (S n) (omap s ++ [(k, n)])
  end.

(** [discard]: utils.py:346-350. *)
Definition discard (s : oset) (k : K) : oset :=
  match mlookup k (omap s) with
  | None => s
  | Some n =>
      let prev := nprev (heap s n) in
      let next := nnext (heap s n) in
      let h1 := set_next (heap s) prev next in
      let h2 := set_prev h1 next prev in
      mkOSet h2 (fresh s) (mremove k (omap s))
  end.

(** [__iter__]: utils.py:352-357, with explicit fuel for the [while curr is not end] loop.
    [None] = fuel exhausted or the sentinel key met (neither occurs, as the theorems show). *)
Fixpoint iter_from (fuel : nat) (h : loc -> node) (curr : loc) : option (list K) :=
  match fuel with
  | 0 => None
  | S fuel' =>
      if Nat.eq_dec curr end_ then Some []
      else match nkey (h curr), iter_from fuel' h (nnext (h curr)) with
           | Some k, Some ks => Some (k :: ks)
           | _, _ => None
           end
  end.
(** The fuel is the number of allocated nodes, an upper bound on the steps of a loop that does not repeat. *)
Definition oiter (s : oset) : option (list K) := iter_from (fresh s) (heap s) (nnext (heap s end_)).

(** [__reversed__]: utils.py:359-364. *)
Fixpoint riter_from (fuel : nat) (h : loc -> node) (curr : loc) : option (list K) :=
  match fuel with
  | 0 => None
  | S fuel' =>
      if Nat.eq_dec curr end_ then Some []
      else match nkey (h curr), riter_from fuel' h (nprev (h curr)) with
           | Some k, Some ks => Some (k :: ks)
           | _, _ => None
           end
  end.
Definition oreversed (s : oset) : option (list K) := riter_from (fresh s) (heap s) (nprev (heap s end_)).

(** [pop]: utils.py:366-371.  [not self] is [len(self) == 0].  Returning [Raises TypeError] if the
    sentinel's key [None] were met keeps the model honest; it is shown unreachable. *)
Definition pop (s : oset) (last : bool) : res K * oset :=
  if Nat.eqb (olen s) 0 then (Raises KeyError, s)
  else
    let n := if last then nprev (heap s end_) else nnext (heap s end_) in
    match nkey (heap s n) with
    | Some k => (Ok k, discard s k)
    | None => (Raises TypeError, s)
    end.

(** A client program is a sequence of calls; [run] returns the final state and the outputs of the pops. *)
Inductive op := Add (k : K) | Discard (k : K) | Pop (last : bool).
Definition step (s : oset) (o : op) : oset * option (res K) :=
  match o with
  | Add k => (add s k, None)
  | Discard k => (discard s k, None)
  | Pop b => let '(r, s') := pop s b in (s', Some r)
  end.
Fixpoint run (s : oset) (os : list op) : oset * list (option (res K)) :=
  match os with
  | [] => (s, [])
  | o :: os' => let '(s1, r) := step s o in let '(s2, rs) := run s1 os' in (s2, r :: rs)
  end.

End OSet.
Arguments node : clear implicits.
Arguments oset : clear implicits.
Arguments op : clear implicits.
