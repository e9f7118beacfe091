(** Specification for C82: text files of points. *)
From Coq Require Import String.
From Verif Require Import Base PyStr QBase DateModel UngrModel CciSpec.
From Coq Require Import List Ascii.
Import ListNotations.
Open Scope string_scope. Open Scope list_scope. Open Scope nat_scope. Notation length := List.length.

(** blanks (and what may stand at the end of a line) *)
Definition blanks (s : str) : Prop := Forall (fun c => In c [" "; "013"; "010"]%char) s.
(** nothing, or a comment *)
Definition remark (s : str) : Prop := s = [] \/ exists r, s = "#"%char :: r.
(** a text between blanks *)
Definition bare (s : str) : Prop := forall c r, s = c :: r \/ s = r ++ [c] -> ~ In c [" "; "013"; "010"]%char.
(** a line with nothing to say, and a line that has the fields fs *)
Definition empty_line (l : str) : Prop := exists a r, l = a ++ r /\ blanks a /\ remark r.
Definition has_fields (l : str) (fs : list str) : Prop :=
  exists a b r t, l = a ++ t ++ b ++ r /\ t = join_on "," fs /\ t <> [] /\ blanks a /\ blanks b /\ remark r /\ bare t /\ Forall (fun f => ~ In ","%char f /\ ~ In "#"%char f) fs.
(** the observations of a file, in order *)
Inductive observations : list str -> list (list str) -> Prop :=
| no_more : observations [] []
| skipped l ls os : empty_line l -> observations ls os -> observations (l :: ls) os
| observed l ls fs os : fs <> [] -> has_fields l fs -> observations ls os -> observations (l :: ls) (fs :: os).
Section Rows.
Variable number : str -> option Q.
Variable moment : str -> option datetime.
(** five fields, a time that can be read *)
Definition complete (fs : list str) : Prop := exists la lo al ti v t, fs = [la; lo; al; ti; v] /\ moment ti = Some t.
(** latitude, longitude, altitude, days since 1600-01-01 and the value *)
Definition says (fs : list str) (r : list (option Q) * option Q) : Prop :=
  exists la lo al ti v t x, fs = [la; lo; al; ti; v] /\ moment ti = Some t /\ r = ([number la; number lo; number al; Some x], number v) /\ (x * 86400 == inject_Z (seconds_between std_ref t))%Q.
End Rows.
(** the coordinates of the points *)
Definition four : list (option str) := [Some (lit "latitude"); Some (lit "longitude"); Some (lit "altitude"); Some (lit "time")].
