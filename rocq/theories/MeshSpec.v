(** What a two-dimensional plot of gridded data should draw, C77. *)
From Coq Require Import QArith Qabs.
From Verif Require Import Base QBase MeshModel.

Definition cell {A} (m : list (list A)) (i j : nat) : option A := match nth_error m i with Some r => nth_error r j | None => None end.
Definition rectangle {A} (r c : nat) (m : list (list A)) : Prop := length m = r /\ Forall (fun row => length row = c) m.

(** the dimension of the data an axis lies along *)
Inductive dim := Down | Across.
Definition extent (d : dim) (r c : nat) : nat := match d with Down => r | Across => c end.
Definition index (d : dim) (p q : nat) : nat := match d with Down => p | Across => q end.
Definition flip (tr : bool) (d : dim) : dim := match tr, d with true, Down => Across | true, Across => Down | false, d => d end.
(** where the element (p, q) of the data is drawn if the plot is turned *)
Definition place (tr : bool) (p q : nat) : nat * nat := if tr then (q, p) else (p, q).

(** the steps of an axis are the same, up to numpy.allclose's tolerance *)
Definition nearly_even (l : list Q) : Prop :=
  exists a0 b0, nth_error l 0 = Some a0 /\ nth_error l 1 = Some b0 /\
    forall k a b, nth_error l k = Some a -> nth_error l (S k) = Some b -> Qabs ((b - a) - (b0 - a0)) <= (1 # 100000000) + (1 # 100000) * Qabs (b0 - a0).

(** every element of the data is drawn at its own coordinates; there may be [extra] more columns *)
Definition draws {V} (tr : bool) (r c : nat) (data : list (list V)) (lx : list Q) (dx : dim) (ly : list Q) (dy : dim) (extra : nat) (D : list (list V)) (mx my : list (list Q)) : Prop :=
  let '(r', c') := place tr r c in
  rectangle r' (c' + extra) D /\ rectangle r' (c' + extra) mx /\ rectangle r' (c' + extra) my /\
  forall p q, (p < r)%nat -> (q < c)%nat -> let '(i, j) := place tr p q in
    cell D i j = cell data p q /\ cell mx i j = nth_error lx (index dx p q) /\ cell my i j = nth_error ly (index dy p q).
(** the last column repeats the first, one step beyond the end of the axis [l] drawn across *)
Definition repeats_first {V} (r c : nat) (l : list Q) (D : list (list V)) (along other : list (list Q)) : Prop :=
  exists a0 b0 z, nth_error l 0 = Some a0 /\ nth_error l 1 = Some b0 /\ nth_error l (c - 1) = Some z /\
    forall i, (i < r)%nat -> cell D i c = cell D i 0 /\ cell along i c = Some (z + (b0 - a0)) /\ cell other i c = cell other i 0.

(** matplotlib's pcolormesh accepts the arrays: its edges are one more than, or as many as, the values *)
Definition edges (x y : axis) : nat * nat := (match y with A1 l => length l | A2 m => length m end, match x with A1 l => length l | A2 m => ncols m end).
Definition fits (r c : nat) (x y : axis) : Prop := let '(ny, nx) := edges x y in (ny = r \/ ny = S r) /\ (nx = c \/ nx = S c).

(** the axis drawn across *)
Definition across (tr : bool) (dx : dim) (lx ly : list Q) : list Q := match flip tr dx with Across => lx | Down => ly end.
Definition oriented {A} (tr : bool) (dx : dim) (mx my : A) : A * A := match flip tr dx with Across => (mx, my) | Down => (my, mx) end.
Definition columns (tr : bool) (r c : nat) : nat := snd (place tr r c).
Definition rows (tr : bool) (r c : nat) : nat := fst (place tr r c).
(** every element of the data is drawn, one of its coordinates being given for every element by [h] and the other along the dimension [d] *)
Definition draws_hybrid {V} (tr : bool) (r c : nat) (data : list (list V)) (l : list Q) (d : dim) (h : list (list Q)) (D : list (list V)) (ml mh : list (list Q)) : Prop :=
  let '(r', c') := place tr r c in
  rectangle r' c' D /\ rectangle r' c' ml /\ rectangle r' c' mh /\
  forall p q, (p < r)%nat -> (q < c)%nat -> let '(i, j) := place tr p q in cell D i j = cell data p q /\ cell ml i j = nth_error l (index d p q) /\ cell mh i j = cell h p q.
