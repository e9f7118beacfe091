(** Specification for C107: equality of data. *)
From Coq Require Import QArith Qabs.
From Verif Require Import Base PyStr MtModel MtSpec EqvModel.
From Coq Require Import List. Import ListNotations.
Open Scope list_scope.

(** within the tolerance of the second: 1e-8 and a hundred-thousandth of it *)
Definition near (x y : Q) : Prop := (Qabs (x - y) <= (1 # 100000000) + (1 # 100000) * Qabs y)%Q.
Definition masked (c : cell) : Prop := c = Masked.
(** two lists of cells agree: they are as long as each other, and where neither is masked there are two numbers near each other *)
Definition agree (d d' : list cell) : Prop :=
  length d = length d' /\ forall i x y, nth_error d i = Some x -> nth_error d' i = Some y -> ~ masked x -> ~ masked y -> exists p q, x = Number p /\ y = Number q /\ near p q.
(** at some place neither is masked, or there are no places *)
Definition comparable (d d' : list cell) : Prop := d = [] \/ exists i x y, nth_error d i = Some x /\ nth_error d' i = Some y /\ ~ masked x /\ ~ masked y.
Definition no_nan (d : list cell) : Prop := ~ In NaN d.
