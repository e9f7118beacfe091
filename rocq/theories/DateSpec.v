(** Specifications for C11 - C14. *)
From Coq Require Import Ascii.
From Verif Require Import Base PyStr QBase DistModel DistSpec DateModel.
Open Scope Z_scope.

Definition fields (t : datetime) : list Z := [year t; month t; day t; hour t; minute t; second t].
(** chronological order: year first, then month, ... *)
Fixpoint lex_le (a b : list Z) : Prop :=
  match a, b with x :: a, y :: b => x < y \/ (x = y /\ lex_le a b) | _, _ => True end.
Definition not_later (a b : datetime) : Prop := lex_le (fields a) (fields b).
(** the date [t] has the components given by the partial date *)
Definition has_components (p : partial) (t : datetime) : Prop :=
  forall i v, nth_error (components p) i = Some (Some v) -> nth_error (fields t) i = Some v.

(** a decimal number text *)
Definition numeral (ds : list nat) : Prop := ds <> [] /\ Forall (fun x => (x < 10)%nat) ds.
Definition text (ds : list nat) : str := map render_digit ds.
Definition number (ds : list nat) : Z := digits_value ds 0.

(** a token of a period: a number and a unit letter, written in either case *)
Definition token := (list nat * ascii)%type.
Definition token_ok (k : token) : Prop := numeral (fst k) /\ is_upper (upper_char (snd k)) = true.
Definition token_text (k : token) : str := text (fst k) ++ [snd k].
Definition tokens_text (ks : list token) : str := concat (map token_text ks).
Definition unit_of (k : token) : ascii := upper_char (snd k).
(** the number given with a unit: its last mention, 0 if not mentioned *)
Fixpoint amount (u : ascii) (ks : list token) : Z :=
  match ks with
  | [] => 0
  | k :: ks => if existsb (fun k' => if ascii_dec (unit_of k') u then true else false) ks then amount u ks
               else if ascii_dec (unit_of k) u then number (fst k) else 0
  end.
