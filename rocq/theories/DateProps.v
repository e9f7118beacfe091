(** Properties C11 (partial dates), C12 (periods), C13 (seconds since a reference), C14 (changing the year). *)
From Coq Require Import Ascii.
From Verif Require Import Base PyStr QBase DistModel DistSpec DateModel DateSpec DateProofs.
Open Scope Z_scope.

(** ** C11 *)
(** The range of an accepted partial date: both ends are dates, and the dates having its components are exactly those
    between them.  Missing: the last December of the calendar (refuted below). *)
Theorem C11_range_is_the_period_partial : forall y rest p,
  length rest = 5%nat -> new_partial y rest = Ok p ->
  ~ (p_year p = 9999 /\ (nth 0 (p_rest p) None = None \/ (nth 0 (p_rest p) None = Some 12 /\ nth 1 (p_rest p) None = None))) ->
  exists lo hi, pdt_range p = Ok (lo, hi) /\ valid_datetime lo = true /\ valid_datetime hi = true
    /\ forall t, valid_datetime t = true -> (has_components p t <-> not_later lo t /\ not_later t hi).
Proof. exact partial_range. Qed.
Print Assumptions C11_range_is_the_period_partial.
(** A partial date with a gap is rejected with ValueError; construction either succeeds or raises ValueError. *)
Theorem C11_gaps_rejected : forall y rest,
  (exists i j v, (i < j)%nat /\ nth_error rest i = Some None /\ nth_error rest j = Some (Some v)) -> new_partial y rest = Raises ValueError.
Proof. exact partial_gap. Qed.
Print Assumptions C11_gaps_rejected.
Theorem C11_constructor_total : forall y rest, length rest = 5%nat ->
  (exists p, new_partial y rest = Ok p) \/ new_partial y rest = Raises ValueError.
Proof. exact partial_accepts. Qed.
Print Assumptions C11_constructor_total.
(** Parsing: numbers joined by '-', then one of 'T', ' ', ':' and numbers joined by ':'. *)
Theorem C11_text_is_read_back : forall dparts tparts sep,
  dparts <> [] -> Forall numeral dparts -> Forall numeral tparts -> is_dt_sep sep = true ->
  parse_partial_datetime (join_on "-" (map text dparts) ++ match tparts with [] => [] | _ => sep :: join_on ":" (map text tparts) end)
  = if (3 <? length dparts)%nat || (3 <? length tparts)%nat || ((length dparts <? 3)%nat && (0 <? length tparts)%nat) then Raises ValueError
    else match map number (dparts ++ tparts) with y :: r => new_partial y (pad5 r) | [] => Raises TypeError end.
Proof. exact parse_partial_text. Qed.
Print Assumptions C11_text_is_read_back.
(** Finding: the end of year 9999 (or of its December) is not found; OverflowError is not the ValueError callers expect. *)
Theorem C11_last_year_refuted : exists p, new_partial 9999 [None; None; None; None; None] = Ok p /\ pdt_range p = Raises OverflowError.
Proof. eexists. split; reflexivity. Qed.
Print Assumptions C11_last_year_refuted.

Example C11_example :
  parse_partial_datetime (lit "2012-02"%string) = Ok (mkPartial 2012 [Some 2; None; None; None; None])
  /\ pdt_range (mkPartial 2012 [Some 2; None; None; None; None]) = Ok (mkDT 2012 2 1 0 0 0, mkDT 2012 2 29 23 59 59)
  /\ pdt_range (mkPartial 1900 [Some 2; None; None; None; None]) = Ok (mkDT 1900 2 1 0 0 0, mkDT 1900 2 28 23 59 59)
  /\ parse_partial_datetime (lit "2012-02-30T12"%string) = Raises ValueError
  /\ parse_partial_datetime (lit "2012-02T12"%string) = Raises ValueError.
Proof. repeat split; vm_compute; reflexivity. Qed.

(** ** C12 *)
(** A period: 'P', number-unit tokens, a separator and time tokens; letters in either case.  A unit's amount is that of its
    last mention (so its only one if each unit is given once). *)
Theorem C12_period_adds_up : forall p sep ds ts,
  upper_char p = "P"%char -> is_dt_sep (upper_char sep) = true -> Forall token_ok ds -> Forall token_ok ts ->
  Forall (fun k => In (unit_of k) ["Y"; "M"; "D"]%char) ds -> Forall (fun k => In (unit_of k) ["H"; "M"; "S"]%char) ts ->
  parse_datetime_delta (period p sep ds ts) =
    Ok (amount "S" ts + 60 * amount "M" ts + 3600 * amount "H" ts + 86400 * (amount "D" ds + 30 * amount "M" ds + 365 * amount "Y" ds)).
Proof. exact period_value. Qed.
Print Assumptions C12_period_adds_up.
Theorem C12_unknown_units_rejected : forall p sep ds ts,
  upper_char p = "P"%char -> is_dt_sep (upper_char sep) = true -> Forall token_ok ds -> Forall token_ok ts ->
  Forall (fun k => unit_of k <> "T"%char) ds ->
  (Exists (fun k => ~ In (unit_of k) ["Y"; "M"; "D"]%char) ds \/ Exists (fun k => ~ In (unit_of k) ["H"; "M"; "S"]%char) ts) ->
  parse_datetime_delta (period p sep ds ts) = Raises ValueError.
Proof. exact period_bad_unit. Qed.
Print Assumptions C12_unknown_units_rejected.
Theorem C12_days : forall s secs, parse_datetime_delta s = Ok secs ->
  exists q, parse_datetimestr_delta_to_float_days s = Ok q /\ (q * 86400 == inject_Z secs)%Q.
Proof. exact period_days. Qed.
Print Assumptions C12_days.
(** Finding: anything between the tokens is skipped, so one and a half days is read as five days, minus one day as one. *)
Theorem C12_fraction_misread : parse_datetime_delta (lit "P1.5D"%string) = Ok (5 * 86400) /\ parse_datetime_delta (lit "P-1D"%string) = Ok 86400.
Proof. split; vm_compute; reflexivity. Qed.
Print Assumptions C12_fraction_misread.

Definition ex_ds : list token := [([1]%nat, "Y"%char); ([3]%nat, "d"%char); ([1; 1]%nat, "M"%char)].
Definition ex_ts : list token := [([6]%nat, "S"%char); ([4]%nat, "H"%char)].
Example C12_example :
  period "P" "T" ex_ds ex_ts = lit "P1Y3d11MT6S4H"%string
  /\ Forall token_ok ex_ds /\ Forall token_ok ex_ts
  /\ Forall (fun k => In (unit_of k) ["Y"; "M"; "D"]%char) ex_ds /\ Forall (fun k => In (unit_of k) ["H"; "M"; "S"]%char) ex_ts
  /\ parse_datetime_delta (lit "P1Y3d11MT6S4H"%string) = Ok (6 + 4 * 3600 + 86400 * (365 + 330 + 3)).
Proof.
  split; [reflexivity|]. split; [repeat constructor; simpl; try lia; discriminate|]. split; [repeat constructor; simpl; try lia; discriminate|].
  split; [repeat (apply Forall_cons; [simpl; tauto|]); constructor|]. split; [repeat (apply Forall_cons; [simpl; tauto|]); constructor|]. vm_compute. reflexivity.
Qed.

(** ** C13 *)
(** The calendar count used below advances by one day per day. *)
Theorem C13_ordinals_count_days : forall t t', valid_datetime t = true -> next_day t = Ok t' ->
  valid_datetime t' = true /\ toordinal t' = toordinal t + 1 /\ seconds_of_day t' = seconds_of_day t.
Proof. exact next_day_ordinal. Qed.
Print Assumptions C13_ordinals_count_days.
(** The result, in seconds, is the elapsed time from the standard reference to (reference + seconds) exactly when the
    reference is at midnight: at any other reference time C13 is false. *)
Theorem C13_right_iff_reference_at_midnight_refuted : forall ref s, valid_datetime ref = true ->
  (convert_sec_since_to_std_time ref s * 86400 ==
    inject_Z ((toordinal ref * 86400 + seconds_of_day ref) - (toordinal std_ref * 86400 + seconds_of_day std_ref)) + s)%Q
  <-> seconds_of_day ref = 0.
Proof. exact sec_since_midnight. Qed.
Print Assumptions C13_right_iff_reference_at_midnight_refuted.
(** what is computed in every case: the seconds are counted from the midnight before the reference *)
Theorem C13_counted_from_midnight_partial : forall ref s, valid_datetime ref = true ->
  (convert_sec_since_to_std_time ref s * 86400 == inject_Z ((toordinal ref - toordinal std_ref) * 86400) + s)%Q.
Proof. exact sec_since_error. Qed.
Print Assumptions C13_counted_from_midnight_partial.
Example C13_example : valid_datetime (mkDT 1993 1 1 0 0 0) = true
  /\ (convert_sec_since_to_std_time (mkDT 1993 1 1 0 0 0) 43200 == 143541 + (1 # 2))%Q
  /\ (convert_sec_since_to_std_time (mkDT 1993 1 1 12 0 0) 0 == convert_sec_since_to_std_time (mkDT 1993 1 1 0 0 0) 0)%Q.
Proof. repeat split; vm_compute; reflexivity. Qed.

(** ** C14 *)
Theorem C14_set_year : forall t y, valid_datetime t = true -> 1 <= y <= 9999 ->
  (set_year t y = None <-> month t = 2 /\ day t = 29 /\ is_leap y = false)
  /\ forall t', set_year t y = Some t' -> valid_datetime t' = true /\ year t' = y /\ tl (fields t') = tl (fields t).
Proof. exact set_year_spec. Qed.
Print Assumptions C14_set_year.
Theorem C14_change_year_of_all : forall ts y ts', Forall (fun t => valid_datetime t = true) ts -> 1 <= y <= 9999 -> change_year ts y = Ok ts' ->
  Forall2 (fun t t' => valid_datetime t' = true /\ year t' = y /\ tl (fields t') = tl (fields t)) ts ts'.
Proof. exact change_year_spec. Qed.
Print Assumptions C14_change_year_of_all.
Example C14_example : set_year (mkDT 2012 2 29 6 0 0) 2000 = Some (mkDT 2000 2 29 6 0 0)
  /\ set_year (mkDT 2012 2 29 6 0 0) 1900 = None
  /\ change_year [mkDT 2012 3 1 0 0 0; mkDT 2011 12 31 23 59 59] 1999 = Ok [mkDT 1999 3 1 0 0 0; mkDT 1999 12 31 23 59 59].
Proof. repeat split; vm_compute; reflexivity. Qed.
