(** Python's [re.match] on the regular expressions of cis/parse.py: a backtracking matcher. *)
From Verif Require Import Base PyStr.

(** one character of a class; one or more of a class, as many as possible; sequence; optional part; numbered group; [$] (the end, or before a last newline) *)
Inductive re := Chr (p : ascii -> bool) | Plus (p : ascii -> bool) | Seq (a b : re) | Opt (a : re) | Group (n : nat) (a : re) | End.
Definition groups := list (nat * str).
Definition cont := str -> groups -> option groups.
(** the rest of a greedy run: take one more if what follows then matches, else stop here *)
Fixpoint run_greedy (p : ascii -> bool) (s : str) (g : groups) (k : cont) : option groups :=
  match s with
  | c :: s' => if p c then match run_greedy p s' g k with Some r => Some r | None => k s g end else k s g
  | [] => k [] g
  end.
Fixpoint matching (r : re) (s : str) (g : groups) (k : cont) : option groups :=
  match r with
  | Chr p => match s with c :: s' => if p c then k s' g else None | [] => None end
  | Plus p => match s with c :: s' => if p c then run_greedy p s' g k else None | [] => None end
  | Seq a b => matching a s g (fun s g => matching b s g k)
  | Opt a => match matching a s g k with Some r => Some r | None => k s g end
  | Group n a => matching a s g (fun s' g' => k s' ((n, firstn (length s - length s') s) :: g'))
  | End => match s with [] => k s g | [c] => if ascii_dec c "010"%char then k s g else None | _ => None end
  end.
(** re.match: from the start of the text, any rest *)
Definition re_match (r : re) (s : str) : option groups := matching r s [] (fun _ g => Some g).
(** match.group(n): None if the group took no part *)
Fixpoint group (g : groups) (n : nat) : option str := match g with [] => None | (m, t) :: g => if m =? n then Some t else group g n end.
Definition is (c : ascii) (a : ascii) : bool := if ascii_dec a c then true else false.
Definition isnt (c : ascii) (a : ascii) : bool := negb (is c a).
