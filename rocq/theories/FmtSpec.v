(** Specification for C87: size, limits, ticks and labels of a plot. *)
From Coq Require Import String.
From Verif Require Import Base PyStr QBase DateModel FmtModel.
From Coq Require Import List.
Import ListNotations.
Open Scope string_scope. Open Scope list_scope. Open Scope Q_scope. Notation length := List.length.

(** a value that was asked for, or else the one there is *)
Definition asked (o : option Q) (x : Q) : Q := match o with Some y => y | None => x end.
(** *** axes: where they begin and end *)
Definition shows (v : Q * Q) (x : Q) : Prop := fst v <= x <= snd v \/ snd v <= x <= fst v.
Definition upwards (v : Q * Q) : Prop := fst v < snd v.
Definition evenly (from step : Q) (ticks : list Q) : Prop := forall k t, nth_error ticks k = Some t -> t == from + inject_Z (Z.of_nat k) * step.
Definition multiple (d step : Q) : Prop := exists k : Z, d == inject_Z k * step.

(** *** maps *)
(** on a map with this central longitude, a longitude is drawn at x *)
Definition drawn_at (central lon x : Q) : Prop := -180 <= x < 180 /\ exists k : Z, x == lon - central + inject_Z k * 360.
Definition same_longitude (a b : Q) : Prop := exists k : Z, a == b + inject_Z k * 360.
(** the longitude at which the map should begin: -180 or 0, by the sign of the limit given, or by that of the smallest longitude *)
Inductive begins (data : list (option (list Q))) : option Q -> Q -> Prop :=
| asked_negative x : x < 0 -> begins data (Some x) (-180)
| asked_positive x : 0 <= x -> begins data (Some x) 0
| data_negative l x : In (Some l) data -> In x l -> x < 0 -> begins data None (-180)
| data_positive l x : In (Some l) data -> In x l -> (forall l x, In (Some l) data -> In x l -> 0 <= x) -> begins data None 0.

(** *** times *)
Definition days_since_1600 (t : datetime) : Q := inject_Z (toordinal t - 584023) + inject_Z (seconds_of_day t) / 86400.
(** matplotlib's number for a moment: days since 1970 *)
Definition number_of (t : datetime) (x : Q) : Prop := x == inject_Z (toordinal t - 719163) + inject_Z (seconds_of_day t) / 86400.
Definition same_clock (t u : datetime) : Prop := hour t = hour u /\ minute t = minute u /\ second t = second u.
Definition same_day (t u : datetime) : Prop := year t = year u /\ month t = month u /\ day t = day u.
