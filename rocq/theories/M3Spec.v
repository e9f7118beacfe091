(** Specification for C85: what a MODIS Level 3 file says about its time. *)
From Coq Require Import String.
From Verif Require Import Base PyStr QBase M3Model.
From Coq Require Import List Ascii.
Import ListNotations.
Open Scope string_scope. Open Scope list_scope. Open Scope nat_scope. Notation length := List.length.

Definition quotation : ascii := """"%char.
Definition line_end : ascii := Ascii.ascii_of_nat 10.
(** t occurs in s *)
Definition occurs (t s : str) : Prop := exists a b, s = a ++ t ++ b.
(** s, an attribute of the file, has an object named kw whose value is val: after the first kw, before the end of the object, the only quotations are those around val *)
Definition states (s kw val : str) : Prop :=
  exists pre a b post, s = pre ++ kw ++ a ++ [quotation] ++ val ++ [quotation] ++ b ++ lit "END_OBJECT" ++ post /\
    (forall x y, s = x ++ kw ++ y -> length pre <= length x) /\
    (forall x y, kw ++ a ++ [quotation] ++ val ++ [quotation] ++ b ++ lit "END_OBJECT" ++ post = x ++ lit "END_OBJECT" ++ y -> length (kw ++ a ++ [quotation] ++ val ++ [quotation] ++ b) <= length x) /\
    ~ In quotation kw /\ ~ In quotation a /\ ~ In quotation b /\ val <> [] /\ ~ In quotation val /\ ~ In line_end val.
(** the attributes of a file say that kw is val: one of them states it, those before do not mention it *)
Definition described (attrs : list attr) (kw : string) (val : str) : Prop :=
  exists l t r, attrs = l ++ Text t :: r /\ states t (lit kw) val /\ Forall (fun x => exists s, x = Text s /\ ~ occurs (lit kw) s) l.
(** no attribute mentions kw *)
Definition not_described (attrs : list attr) (kw : string) : Prop := Forall (fun x => exists s, x = Text s /\ ~ occurs (lit kw) s) attrs.
(** all positions are there and go up, or down *)
Definition axis (l : list (option Q)) (p : list Q) : Prop :=
  l = map Some p /\ p <> [] /\ ((forall i x y, nth_error p i = Some x -> nth_error p (S i) = Some y -> (x < y)%Q) \/ (forall i x y, nth_error p i = Some x -> nth_error p (S i) = Some y -> (y < x)%Q)).
(** a file of a grid whose time is from s to e *)
Definition good_file (parse : str -> res Q) (f : mfile) (lat lon : list Q) (s e : Q) : Prop :=
  axis (m_lat f) lat /\ axis (m_lon f) lon /\ length (m_var f) = length lat /\ Forall (fun r => length r = length lon) (m_var f) /\
  exists sd st ed et, described (m_attrs f) "RANGEBEGINNINGDATE" sd /\ described (m_attrs f) "RANGEBEGINNINGTIME" st /\ described (m_attrs f) "RANGEENDINGDATE" ed /\ described (m_attrs f) "RANGEENDINGTIME" et /\
    parse (sd ++ lit " " ++ st) = Ok s /\ parse (ed ++ lit " " ++ et) = Ok e.
(** its cube *)
Definition cube_of (f : mfile) (lat lon : list Q) (s e : Q) (c : mcube) : Prop :=
  c_lat c = lat /\ c_lon c = lon /\ c_rows c = m_var f /\ c_bounds c = (s, e) /\ (c_point c == (s + e) / 2)%Q.
