(** Specifications for C50, C54, C55. *)
From Verif Require Import Base QBase UtilModel.
Open Scope Q_scope.

(** a value lies in the bin between two consecutive edges (the last bin closed, as numpy's histogram has it) *)
Definition in_some_bin (edges : list Q) (v : Q) : Prop :=
  exists i a b, nth_error edges i = Some a /\ nth_error edges (S i) = Some b
    /\ a <= v /\ (v < b \/ (v == b /\ length edges = S (S i))).
(** edges start at [lo], each [step] after the one before *)
Definition equally_spaced (lo step : Q) (edges : list Q) : Prop :=
  forall k e, nth_error edges k = Some e -> e == lo + step * inject_Z (Z.of_nat k).

(** equal, or both NaN *)
Definition same_value (a b : fval) : Prop :=
  match a, b with Some x, Some y => x == y | None, None => True | _, _ => False end.

(** element [i] of an array is present and missing / not missing *)
Definition element {A} (a : anarray A) (i : nat) (x : A) (missing : bool) : Prop :=
  nth_error (an_data a) i = Some x /\ nth_error (getmaskarray a) i = Some missing.
Definition array_ok {A} (a : anarray A) : Prop :=
  match a with Masked d (Some m) => length m = length d | _ => True end.
