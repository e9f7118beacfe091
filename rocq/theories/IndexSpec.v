(** Specification for C02: row-major order is the lexicographic order on index tuples. *)
From Verif Require Import Base.
From Coq Require Export Sorting.Sorted.

(** [lex_lt a b]: tuples of equal length, [a] before [b] with the last index varying fastest. *)
Inductive lex_lt : list nat -> list nat -> Prop :=
| lex_here x y a b : x < y -> length a = length b -> lex_lt (x :: a) (y :: b)
| lex_there x a b : lex_lt a b -> lex_lt (x :: a) (x :: b).

(** an index tuple is valid for a shape if it has one index per dimension, each below the size *)
Definition valid_index (shape idx : list nat) : Prop := Forall2 (fun i n => i < n) idx shape.

(** number of cells *)
Fixpoint cells (shape : list nat) : nat := match shape with [] => 1 | n :: s => n * cells s end.

(** position of an index tuple in a C-ordered array *)
Fixpoint flat_pos (shape idx : list nat) : nat :=
  match shape, idx with
  | n :: s, i :: r => i * cells s + flat_pos s r
  | _, _ => 0
  end.
