(** Specifications for C07 - C10 and C56: bracket nesting, escaping, aliases, consent. *)
From Verif Require Import Base PyStr.

Section Brackets.
(** bracket pairs, opening bracket first *)
Variable br : list (ascii * ascii).
Definition opener (c : ascii) : Prop := exists cl, In (c, cl) br.

(** [inside cl t]: the text [t] can stand between an opening bracket and its closer [cl] without closing it; nested
    brackets in [t] are closed in [t]. *)
Inductive inside : ascii -> str -> Prop :=
| in_nil cl : inside cl []
| in_char cl t c : inside cl t -> ~ opener c -> c <> cl -> inside cl (t ++ [c])
| in_nest cl t o cl' u : inside cl t -> In (o, cl') br -> ~ opener cl' -> inside cl' u -> inside cl (t ++ o :: u ++ [cl']).

(** [closed t]: after reading [t] no bracket is open. *)
Inductive closed : str -> Prop :=
| cl_nil : closed []
| cl_char t c : closed t -> ~ opener c -> closed (t ++ [c])
| cl_nest t o cl u : closed t -> In (o, cl) br -> ~ opener cl -> inside cl u -> closed (t ++ o :: u ++ [cl]).

(** position [i] of [s] holds a separator that no bracket encloses *)
Definition outside_separator (seps : list ascii) (s : str) (i : nat) : Prop :=
  exists p c q, s = p ++ c :: q /\ length p = i /\ In c seps /\ ~ opener c /\ closed p.
End Brackets.

(** pieces each followed by the separator that ended it, then the remainder *)
Definition assemble (parts : list (str * ascii)) (tail : str) : str :=
  concat (map (fun pc => fst pc ++ [snd pc]) parts) ++ tail.
Fixpoint cut_positions (start : nat) (parts : list (str * ascii)) : list nat :=
  match parts with
  | [] => []
  | (p, _) :: r => (start + length p) :: cut_positions (start + length p + 1) r
  end.

(** writing a word so that its colons are not taken as separators *)
Fixpoint escape (w : str) : str :=
  match w with
  | [] => []
  | a :: w' => if ascii_dec a ":" then "\"%char :: a :: escape w' else a :: escape w'
  end.
Definition ends_in_backslash (w : str) : Prop := exists u, w = u ++ ["\"%char].
(** every word but the last *)
Definition all_but_last (P : str -> Prop) (ws : list str) : Prop :=
  forall ws1 w w' ws2, ws = ws1 ++ w :: w' :: ws2 -> P w.

(** [spec_alias v a spec]: the specification string names variable [v] with alias [a] *)
Definition names_variable (spec v a : str) : Prop :=
  v <> [] /\ a <> [] /\ ~ In "="%char v /\ ~ In "="%char a
  /\ ((spec = v /\ a = v) \/ spec = v ++ "="%char :: a).

(** consent at the prompt: answers other than y, n and the empty one are ignored; the first of those is y *)
Definition ignored_answer (a : str) : Prop := a <> lit "y"%string /\ a <> lit "n"%string /\ a <> [].
Definition answers_yes (answers : list str) : Prop :=
  exists junk rest, answers = junk ++ lit "y"%string :: rest /\ Forall ignored_answer junk.

(** cutting at every character of [seps] *)
Fixpoint split_any (seps : list ascii) (s : str) : list str :=
  match s with
  | [] => [[]]
  | a :: s' =>
      if in_dec ascii_dec a seps then [] :: split_any seps s'
      else match split_any seps s' with [] => [[a]] | p :: ps => (a :: p) :: ps end
  end.
Definition nonblank (l : list str) : list str := filter (fun p => match p with [] => false | _ => true end) l.
(** text "method[arg,...,arg]" *)
Definition method_text (name : str) (args : list str) : str := name ++ "["%char :: join_on "," args ++ ["]"%char].
Definition plain_word (w : str) : Prop := w <> [] /\ ~ In "["%char w /\ ~ In ","%char w /\ ~ In "]"%char w.
