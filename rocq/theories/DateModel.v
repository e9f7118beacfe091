(** Dates: cis/time_util.py and cis/parse_datetime.py.
    A datetime is year, month, day, hour, minute, second (microseconds, always 0 here, are left out). *)
From Coq Require Import Ascii.
From Verif Require Import Base PyStr FileListModel DistModel QBase.
Open Scope Z_scope.

Record datetime := mkDT { year : Z; month : Z; day : Z; hour : Z; minute : Z; second : Z }.

(** Python's calendar (datetime module contract): month lengths, and the checks of the constructor. *)
Definition is_leap (y : Z) : bool := (y mod 4 =? 0) && (negb (y mod 100 =? 0) || (y mod 400 =? 0)).
Definition days_in_month (y m : Z) : Z :=
  if m =? 2 then (if is_leap y then 29 else 28)
  else if (m =? 4) || (m =? 6) || (m =? 9) || (m =? 11) then 30 else 31.
Definition valid_datetime (t : datetime) : bool :=
  (1 <=? year t) && (year t <=? 9999) && (1 <=? month t) && (month t <=? 12)
  && (1 <=? day t) && (day t <=? days_in_month (year t) (month t))
  && (0 <=? hour t) && (hour t <=? 23) && (0 <=? minute t) && (minute t <=? 59) && (0 <=? second t) && (second t <=? 59).
(** [datetime(y, m, d, H, M, S)] *)
Definition new_datetime (t : datetime) : res datetime := if valid_datetime t then Ok t else Raises ValueError.

(** adding and subtracting one day (datetime + timedelta(days=n) is n such steps; beyond the year range Python raises
    OverflowError) *)
Definition next_day (t : datetime) : res datetime :=
  if day t <? days_in_month (year t) (month t) then Ok (mkDT (year t) (month t) (day t + 1) (hour t) (minute t) (second t))
  else if month t <? 12 then Ok (mkDT (year t) (month t + 1) 1 (hour t) (minute t) (second t))
  else if year t <? 9999 then Ok (mkDT (year t + 1) 1 1 (hour t) (minute t) (second t))
  else Raises OverflowError.
Definition prev_day (t : datetime) : res datetime :=
  if 1 <? day t then Ok (mkDT (year t) (month t) (day t - 1) (hour t) (minute t) (second t))
  else if 1 <? month t then Ok (mkDT (year t) (month t - 1) (days_in_month (year t) (month t - 1)) (hour t) (minute t) (second t))
  else if 1 <? year t then Ok (mkDT (year t - 1) 12 31 (hour t) (minute t) (second t))
  else Raises OverflowError.
Fixpoint iter_res {A} (n : nat) (f : A -> res A) (x : A) : res A :=
  match n with O => Ok x | S n => bind (iter_res n f x) f end.

(** cis/time_util.py:121-131 *)
Definition find_last_day_of_month (y m : Z) : res Z :=
  bind (new_datetime (mkDT y m 28 0 0 0)) (fun d28 =>
  bind (iter_res 4 next_day d28) (fun next_month =>
  bind (iter_res (Z.to_nat (day next_month)) prev_day next_month) (fun last_date => Ok (day last_date)))).

(** ** PartialDateTime, cis/time_util.py:9-119: the six components, year mandatory *)
Record partial := mkPartial { p_year : Z; p_rest : list (option Z) (* month, day, hour, minute, second *) }.
Definition components (p : partial) : list (option Z) := Some (p_year p) :: p_rest p.
(** 36-39: no value after the first None *)
Fixpoint has_gap (cs : list (option Z)) : bool :=
  match cs with
  | [] => false
  | None :: r => existsb (fun c => match c with Some _ => true | None => false end) r
  | Some _ :: r => has_gap r
  end.
Fixpoint given (cs : list (option Z)) : list Z :=
  match cs with [] => [] | Some v :: r => v :: given r | None :: r => given r end.
Definition of_six (l : list Z) : res datetime :=
  match l with [y; m; d; h; mi; s] => new_datetime (mkDT y m d h mi s) | _ => Raises TypeError end.
(** 69-86 *)
Definition pdt_min (p : partial) : res datetime :=
  let dt_start := given (components p) in
  let lower := [0; 1; 1; 0; 0; 0] in   (* the year's lower limit is None, never used *)
  of_six (dt_start ++ skipn (length dt_start) lower).
(** 88-107: the missing components in turn, the day from the year and month already there *)
Fixpoint fill_max (idxs : list nat) (dt_end : list Z) : res (list Z) :=
  match idxs with
  | [] => Ok dt_end
  | idx :: idxs =>
    if (idx =? 2)%nat then
      match dt_end with
      | [y; m] => bind (find_last_day_of_month y m) (fun d => fill_max idxs (dt_end ++ [d]))
      | _ => Raises TypeError
      end
    else fill_max idxs (dt_end ++ [nth idx [0; 12; 0; 23; 59; 59] 0])
  end.
Definition pdt_max (p : partial) : res datetime :=
  let dt_end := given (components p) in
  bind (fill_max (seq (length dt_end) (6 - length dt_end)) dt_end) of_six.
(** 18-46: the constructor *)
Definition new_partial (y : Z) (rest : list (option Z)) : res partial :=
  let p := mkPartial y rest in
  if has_gap (components p) then Raises ValueError
  else match pdt_min p with Ok _ => Ok p | Raises TypeError => Raises ValueError | Raises e => Raises e end.
(** 48-67 *)
Definition pdt_range (p : partial) : res (datetime * datetime) :=
  bind (pdt_min p) (fun a => bind (pdt_max p) (fun b => Ok (a, b))).

(** ** cis/parse_datetime.py:20-51 *)
(** Python's int() on text: optional sign and digits; simplification: surrounding blanks and underscores are rejected *)
Definition int_of (s : str) : res Z :=
  let '(sg, r) := match_sign s in
  match r with
  | [] => Raises ValueError
  | _ => if forallb is_digit r then Ok (sign_val sg * digits_val r) else Raises ValueError
  end.
Fixpoint map_res {A B} (f : A -> res B) (l : list A) : res (list B) :=
  match l with [] => Ok [] | x :: l => bind (f x) (fun y => bind (map_res f l) (fun ys => Ok (y :: ys))) end.
Definition is_dt_sep (c : ascii) : bool := if ascii_dec c "T" then true else if ascii_dec c " " then true else if ascii_dec c ":" then true else false.
(** the match of line 34: date text, separator, non-empty time text.  Simplification: no newlines in the text. *)
Definition match_date_time (s : str) : option (str * str) :=
  match span (fun c => negb (is_dt_sep c)) s with
  | ([], _) => None
  | (_, []) => None
  | (_, [_]) => None
  | (d, _ :: t) => Some (d, t)
  end.
Definition pad5 (l : list Z) : list (option Z) := map Some l ++ repeat None (5 - length l).
Definition parse_partial_datetime (s : str) : res partial :=
  bind (match match_date_time s with
        | Some (d, t) => bind (map_res int_of (split_on ":" t)) (fun tc => Ok (d, tc))
        | None => Ok (s, [])
        end) (fun dt =>
  bind (map_res int_of (split_on "-" (fst dt))) (fun dc =>
    let tc := snd dt in
    if (3 <? length dc)%nat || (3 <? length tc)%nat || ((length dc <? 3)%nat && (0 <? length tc)%nat) then Raises ValueError
    else match dc ++ tc with y :: r => new_partial y (pad5 r) | [] => Raises TypeError end)).

(** ** cis/parse_datetime.py:91-147 *)
Definition is_upper (c : ascii) : bool := let n := nat_of_ascii c in (65 <=? n)%nat && (n <=? 90)%nat.
(** re.findall('[0-9]*[A-Z]'): tokens as digits and letter; at each place the digits must run up to the letter *)
Fixpoint findall_tokens (fuel : nat) (s : str) : list (str * ascii) :=
  match fuel with
  | O => []
  | S fuel => match s with
    | [] => []
    | c :: r =>
      match span is_digit s with
      | (ds, u :: rest) => if is_upper u then (ds, u) :: findall_tokens fuel rest else findall_tokens fuel r
      | (_, []) => findall_tokens fuel r
      end
    end
  end.
(** the two token loops (120-143): three registers, the last token of a unit wins *)
Fixpoint token_loop (u1 u2 u3 : ascii) (toks : list (str * ascii)) (acc : Z * Z * Z) : res (Z * Z * Z) :=
  match toks with
  | [] => Ok acc
  | (ds, u) :: toks =>
    bind (int_of ds) (fun v =>
      let '(a, b, c) := acc in
      if ascii_dec u u1 then token_loop u1 u2 u3 toks (v, b, c)
      else if ascii_dec u u2 then token_loop u1 u2 u3 toks (a, v, c)
      else if ascii_dec u u3 then token_loop u1 u2 u3 toks (a, b, v)
      else Raises ValueError)
  end.
(** the match of line 101: 'P', a run of characters other than T, blank and colon, one optional such character, the rest.
    Simplification: no newlines. *)
Definition match_delta (s : str) : option (str * str) :=
  match s with
  | c :: r => if ascii_dec c "P" then
                let '(d, r1) := span (fun c => negb (is_dt_sep c)) r in Some (d, match r1 with [] => [] | _ :: t => t end)
              else None
  | [] => None
  end.
(** the timedelta, in seconds *)
Definition parse_datetime_delta (s : str) : res Z :=
  match match_delta (upper s) with
  | None => Raises ValueError
  | Some (d, t) =>
    bind (token_loop "Y" "M" "D" (findall_tokens (length d) d) (0, 0, 0)) (fun ymd =>
    bind (token_loop "H" "M" "S" (findall_tokens (length t) t) (0, 0, 0)) (fun hms =>
      let '(y, mo, dd) := ymd in let '(h, mi, sec) := hms in
      Ok (sec + 60 * mi + 3600 * h + 86400 * (dd + mo * 30 + y * 365))))
  end.
(** 150-169 *)
Definition parse_datetimestr_delta_to_float_days (s : str) : res Q :=
  bind (parse_datetime_delta s) (fun secs => Ok (inject_Z secs * (1 / (24 * 60 * 60)))%Q).

(** ** Reference times.  Days between dates as the datetime module counts them (proleptic Gregorian ordinals). *)
Definition days_before_year (y : Z) : Z := (y - 1) * 365 + (y - 1) / 4 - (y - 1) / 100 + (y - 1) / 400.
Fixpoint days_before_month (y : Z) (n : nat) : Z :=   (* the days of the first n months *)
  match n with O => 0 | S n => days_before_month y n + days_in_month y (Z.of_nat (S n)) end.
Definition toordinal (t : datetime) : Z := days_before_year (year t) + days_before_month (year t) (Z.to_nat (month t - 1)) + day t.
Definition seconds_of_day (t : datetime) : Z := hour t * 3600 + minute t * 60 + second t.
(** the standard reference, time_util.py:6 *)
Definition std_ref : datetime := mkDT 1600 1 1 0 0 0.
(** (ref - std_ref).days: the whole days of the difference, rounded down *)
Definition offset_days (ref : datetime) : Z :=
  ((toordinal ref - toordinal std_ref) * 86400 + (seconds_of_day ref - seconds_of_day std_ref)) / 86400.
(** cis/time_util.py:177-194, per element *)
Definition convert_sec_since_to_std_time (ref : datetime) (seconds : Q) : Q :=
  (inject_Z (offset_days ref) + seconds / 86400)%Q.
(** cis/time_util.py:134-143 *)
Definition calculate_mid_time (t1 t2 : Q) : Q := (t1 + (t2 - t1) / 2)%Q.

(** cis/time_util.py:251-264; datetime.replace validates the new date *)
Definition set_year (t : datetime) (new_year : Z) : option datetime :=
  match new_datetime (mkDT new_year (month t) (day t) (hour t) (minute t) (second t)) with Ok t' => Some t' | Raises _ => None end.
(** cis/time_util.py:267-289 between datetimes; converting an array holding None fails (date2num) *)
Definition change_year (ts : list datetime) (new_year : Z) : res (list datetime) :=
  map_res (fun t => match set_year t new_year with Some t' => Ok t' | None => Raises AttributeError end) ts.
