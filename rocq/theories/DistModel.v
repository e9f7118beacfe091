(** Distances with units, cis/utils.py:486-547. *)
From Coq Require Import Ascii.
From Verif Require Import Base PyStr QBase.
Open Scope Q_scope.

Definition is_digit (c : ascii) : bool := let n := nat_of_ascii c in (48 <=? n)%nat && (n <=? 57)%nat.
Definition is_sign (c : ascii) : bool := if ascii_dec c "+" then true else if ascii_dec c "-" then true else false.
Definition is_dot (c : ascii) : bool := if ascii_dec c "." then true else false.
Definition is_e (c : ascii) : bool := if ascii_dec c "e" then true else if ascii_dec c "E" then true else false.
(** the character class [a-zA-z] of line 541 (sic: [A-z] includes [ \ ] ^ _ and the back quote) *)
Definition is_unit_char (c : ascii) : bool := let n := nat_of_ascii c in (65 <=? n)%nat && (n <=? 122)%nat.

Fixpoint span {A} (p : A -> bool) (s : list A) : list A * list A :=
  match s with [] => ([], []) | c :: r => if p c then let '(a, b) := span p r in (c :: a, b) else ([], s) end.

(** The regular expression of line 526 (optional sign; digits with optional point and digits, or point and digits;
    optional exponent) matched at the head of a string:
    greedy and, for this expression, without backtracking except over the optional exponent.  Returns what is matched and
    the rest. *)
Definition match_sign (s : str) : str * str := match s with c :: r => if is_sign c then ([c], r) else ([], s) | [] => ([], []) end.
Definition match_mantissa (s : str) : option (str * str) :=
  match span is_digit s with
  | ([], c :: r) => if is_dot c then match span is_digit r with ([], _) => None | (f, r') => Some (c :: f, r') end else None
  | ([], []) => None
  | (d, c :: r) => if is_dot c then let '(f, r') := span is_digit r in Some (d ++ c :: f, r') else Some (d, c :: r)
  | (d, []) => Some (d, [])
  end.
Definition match_exponent (s : str) : str * str :=
  match s with
  | c :: r => if is_e c then let '(sg, r1) := match_sign r in
                match span is_digit r1 with ([], _) => ([], s) | (d, r2) => (c :: sg ++ d, r2) end
              else ([], s)
  | [] => ([], [])
  end.
Definition match_number (s : str) : option (str * str) :=
  let '(sg, r) := match_sign s in
  match match_mantissa r with
  | None => None
  | Some (m, r1) => let '(e, r2) := match_exponent r1 in Some (sg ++ m ++ e, r2)
  end.
(** re.findall: leftmost, non-overlapping.  A match is never empty, so the length of the string is fuel enough. *)
Fixpoint findall_numbers (fuel : nat) (s : str) : list str :=
  match fuel with
  | O => []
  | S fuel => match s with
    | [] => []
    | c :: r => match match_number s with Some (m, rest) => m :: findall_numbers fuel rest | None => findall_numbers fuel r end
    end
  end.
(** maximal runs of unit characters *)
Fixpoint findall_units (fuel : nat) (s : str) : list str :=
  match fuel with
  | O => []
  | S fuel => match s with
    | [] => []
    | c :: r => if is_unit_char c then let '(u, rest) := span is_unit_char s in u :: findall_units fuel rest else findall_units fuel r
    end
  end.
(** str.replace(old, new) with a non-empty [old] *)
Fixpoint strip_prefix (p s : str) : option str :=
  match p, s with
  | [], _ => Some s
  | a :: p, b :: s => if ascii_dec a b then strip_prefix p s else None
  | _, _ => None
  end.
Fixpoint replace_all (fuel : nat) (old new s : str) : str :=
  match fuel with
  | O => s
  | S fuel => match s with
    | [] => []
    | c :: r => match strip_prefix old s with Some rest => new ++ replace_all fuel old new rest | None => c :: replace_all fuel old new r end
    end
  end.

(** float(): the value of a matched number, exactly *)
Definition digit_val (c : ascii) : Z := Z.of_nat (nat_of_ascii c) - 48.
Definition digits_val (s : str) : Z := fold_left (fun acc c => (acc * 10 + digit_val c)%Z) s 0%Z.
Definition sign_val (s : str) : Z := match s with c :: _ => if ascii_dec c "-" then -1 else 1 | [] => 1 end%Z.
Definition float_of (s : str) : Q :=
  let '(sg, r) := match_sign s in
  let '(ip, r1) := span is_digit r in
  let '(fp, r2) := match r1 with c :: r' => if is_dot c then span is_digit r' else ([], r1) | [] => ([], []) end in
  let ex := match r2 with c :: r' => if is_e c then let '(es, d) := match_sign r' in (sign_val es * digits_val d)%Z else 0%Z | [] => 0%Z end in
  inject_Z (sign_val sg) * (inject_Z (digits_val ip) + inject_Z (digits_val fp) / Qpower 10 (Z.of_nat (length fp)))
    * Qpower 10 ex.

(** cis/utils.py:517-547 *)
Definition split_into_float_and_units (s : str) : res (Q * option str) :=
  match findall_numbers (length s) s with
  | [v] =>
    let s' := replace_all (length s) v [" "%char] s in
    match findall_units (length s') s' with
    | [] => Ok (float_of v, None)
    | [u] => Ok (float_of v, Some u)
    | _ => Raises InvalidCommandLineOptionError
    end
  | _ => Raises InvalidCommandLineOptionError
  end.
(** cis/utils.py:486-502 *)
Definition parse_distance_km (s : str) : res Q :=
  bind (split_into_float_and_units s) (fun m =>
    match snd m with
    | None => Ok (fst m)
    | Some u => if str_eqb u (lit "m"%string) then Ok (fst m / 1000)
                else if str_eqb u (lit "km"%string) then Ok (fst m)
                else Raises InvalidCommandLineOptionError
    end).
(** cis/utils.py:504-515 *)
Definition parse_distance_m (s : str) : res Q :=
  bind (split_into_float_and_units s) (fun m =>
    match snd m with
    | None => Ok (fst m)
    | Some _ => bind (parse_distance_km s) (fun d => Ok (d * 1000))
    end).
