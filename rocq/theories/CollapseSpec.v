(** Specifications for C36. *)
From Verif Require Import Base PyStr QBase IndexSpec CollapseModel.
From Coq Require Import Permutation.
Open Scope nat_scope. Notation length := List.length.

(** an array with one element per index *)
Definition whole {A} (a : arr A) : Prop := length (a_flat a) = cells (a_shape a).
(** the dimensions left, in order *)
Definition left_over (n : nat) (dims : list nat) (r : list nat) : Prop := StronglySorted lt r /\ forall d, In d r <-> d < n /\ ~ In d dims.
(** the element of the result at [j] is f of all the elements whose index has these values in the dimensions left, each once *)
Definition reduced {A B} (da : A) (db : B) (f : list A -> B) (a : arr A) (dims : list nat) (b : arr B) : Prop :=
  whole b /\ exists r, left_over (length (a_shape a)) dims r /\ a_shape b = map (fun d => nth d (a_shape a) 0) r /\
  forall j, valid_index (a_shape b) j -> exists idxs, NoDup idxs /\ (forall i, In i idxs <-> valid_index (a_shape a) i /\ map (fun d => nth d i 0) r = j) /\ a_at db b j = f (map (a_at da a) idxs).
(** dimension [old] of the cube is dimension [new] of the result *)
Definition renumbered (n : nat) (dims : list nat) (old new : nat) : Prop := exists r, left_over n dims r /\ nth_error r new = Some old.
(** the dimensions of the coordinate that are collapsed, as numbered in the coordinate *)
Definition own_dims (c : gcoord) (dims own : list nat) : Prop := StronglySorted lt own /\ forall k, In k own <-> exists d, nth_error (gc_dims c) k = Some d /\ In d dims.
Definition touched (c : gcoord) (dims : list nat) : Prop := exists d, In d (gc_dims c) /\ In d dims.
Definition survives (c : gcoord) (dims : list nat) : Prop := exists d, In d (gc_dims c) /\ ~ In d dims.
(** halfway between the least and the largest of some points *)
Definition halfway (pts : list Q) (v : Q) : Prop :=
  (exists lo hi, (forall p, In p pts -> lo <= p /\ p <= hi) /\ (exists p, In p pts /\ p == lo) /\ (exists p, In p pts /\ p == hi) /\ v == (lo + hi) / 2)%Q.
Definition average (f : list Q -> Q) : Prop := forall l, l <> [] -> (f l * inject_Z (Z.of_nat (length l)) == fold_right Qplus 0 l)%Q.
Definition right_coord (n : nat) (dims : list nat) (old new : gcoord) : Prop :=
  gc_name new = gc_name old /\
  (~ touched old dims -> gc_points new = gc_points old /\ Forall2 (renumbered n dims) (gc_dims old) (gc_dims new)) /\
  (touched old dims -> ~ survives old dims -> gc_dims new = [] /\ a_shape (gc_points new) = [] /\ (a_flat (gc_points old) <> [] -> exists v, a_flat (gc_points new) = [v] /\ halfway (a_flat (gc_points old)) v)) /\
  (touched old dims -> survives old dims ->
     (exists left, StronglySorted lt left /\ (forall k, In k left <-> exists d, nth_error (gc_dims old) k = Some d /\ ~ In d dims) /\ Forall2 (fun k new => exists d, nth_error (gc_dims old) k = Some d /\ renumbered n dims d new) left (gc_dims new)) /\
     exists own f, own_dims old dims own /\ average f /\ reduced 0%Q 0%Q f (gc_points old) own (gc_points new)).
(** a cube: every coordinate with the shape of its dimensions, which are distinct and there *)
Definition right_cube {A} (c : cube A) : Prop :=
  whole (cb_data c) /\ Forall (fun k => whole (gc_points k) /\ NoDup (gc_dims k) /\ Forall (fun d => d < length (a_shape (cb_data c))) (gc_dims k) /\
    a_shape (gc_points k) = map (fun d => nth d (a_shape (cb_data c)) 0) (gc_dims k)) (cb_coords c).
(** the dimensions of the coordinates to collapse over *)
Definition collapse_dims {A} (c : cube A) (coords dims : list nat) : Prop :=
  StronglySorted lt dims /\ forall d, In d dims <-> d < length (a_shape (cb_data c)) /\ exists k x, In k coords /\ nth_error (cb_coords c) k = Some x /\ In d (gc_dims x).
(** coordinates over several dimensions have the collapsed dimensions at the same place as the cube *)
Definition same_places (dims : list nat) (k : gcoord) : Prop := touched k dims -> survives k dims -> forall d, In d dims -> nth_error (gc_dims k) d = Some d.
Definition right_collapse {A B} (da : A) (db : B) (f : list A -> B) (c : cube A) (dims : list nat) (out : cube B) : Prop :=
  reduced da db f (cb_data c) dims (cb_data out) /\ exists l, Permutation l (cb_coords out) /\ Forall2 (right_coord (length (a_shape (cb_data c))) dims) (cb_coords c) l.
