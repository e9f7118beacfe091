(** C94: names, units and times of ungridded data.  [V]: the standard names that are valid; [U]: the units cf_units reads. *)
From Coq Require Import String.
From Verif Require Import Base PyStr QBase RafModel MtModel MtSpec MtProofs Mt2Proofs Mt3Proofs.
From Coq Require Import List.
Import ListNotations.
Open Scope string_scope. Open Scope list_scope. Open Scope nat_scope. Notation length := List.length.

(** *** Names *)
(** A standard name is set if it is valid (or None); otherwise it is an error and nothing changes. *)
Theorem C94_standard_name : forall V m s,
  (allowed V s -> exists m', set_standard_name V m s = (m', None) /\ m_std m' = s /\ same_but_std m m') /\ (~ allowed V s -> set_standard_name V m s = (m, Some ValueError)).
Proof. exact set_name. Qed.
Print Assumptions C94_standard_name.
Theorem C94_if_valid : forall V m s, same_but_std m (set_standard_name_if_valid V m s) /\ (allowed V s -> m_std (set_standard_name_if_valid V m s) = s) /\ (~ allowed V s -> m_std (set_standard_name_if_valid V m s) = None).
Proof. exact set_if_valid. Qed.
Print Assumptions C94_if_valid.
(** New metadata have what they were given; without a standard name, the one the name suggests; an invalid one is an error. *)
Theorem C94_new : forall V U name std long u h, knows V ->
  (std <> [] -> V std = false -> new_metadata V U name std long u h = Raises ValueError) /\
  (std = [] \/ V std = true -> exists m, new_metadata V U name std long u h = Ok m /\ m_name m = name /\ m_long m = long /\ m_history m = h /\ m_units m = set_units U u /\ m_range m = NoRange /\ named V name std (m_std m)).
Proof. exact new_ok. Qed.
Print Assumptions C94_new.
(** Of a NetCDF variable: its own standard name, if valid, and none otherwise, whatever its name. *)
Theorem C94_netcdf : forall V U name std long u h, knows V -> exists m, netcdf_metadata V U name std long u h = Ok m /\ m_name m = name /\ m_long m = long /\ m_history m = h /\ m_units m = set_units U (UText u) /\
  m_std m = (if V std then Some std else None).
Proof. exact netcdf_ok. Qed.
Print Assumptions C94_netcdf.
(** Refuted: the standard name says what the data are - a heat flux becomes a latitude. *)
Theorem C94_guess_refuted : forall V U long u h, knows V -> exists m, new_metadata V U (lit "latent_heat_flux") [] long u h = Ok m /\ m_std m = Some (lit "latitude").
Proof. exact guessed_wrongly. Qed.
Print Assumptions C94_guess_refuted.
(** The name is the first of standard name, long name, variable name and default that is not empty. *)
Theorem C94_name : forall l default, let m := l_meta l in
  name_of l default = match filter (fun s => match s with [] => false | _ => true end) [match m_std m with Some s => s | None => [] end; m_long m; m_name m; default] with n :: _ => n | [] => [] end.
Proof. exact first_name. Qed.
Print Assumptions C94_name.

(** *** Units *)
(** A text is tidied, and is then a unit if cf_units can read it, else the tidied text. *)
Theorem C94_units : forall U s t, tidied s t -> (forall u, U t = Some u -> set_units U (UText s) = UUnit u) /\ (U t = None -> set_units U (UText s) = UText t).
Proof. exact units_of_text. Qed.
Print Assumptions C94_units.
Theorem C94_tidied : forall s, exists t, tidied s t /\ forall t', tidied s t' -> t' = t.
Proof. intros s. exists (tidy s). split; [apply tidied_iff; reflexivity|]. intros t' H. apply tidied_iff. exact H. Qed.
Print Assumptions C94_tidied.
(** Setting the units an object has changes nothing, unless they still have a "since:" ... *)
Theorem C94_set_again_partial : forall U s t, tidied s t -> ~ occurs (lit "since:") t -> set_units U (UText t) = set_units U (UText s).
Proof. exact set_again. Qed.
Print Assumptions C94_set_again_partial.
Theorem C94_set_again_refuted : forall U, (forall s, U s = None) -> exists s t t', set_units U (UText s) = UText t /\ set_units U (UText t) = UText t' /\ t' <> t.
Proof. exact set_again_changes. Qed.
Print Assumptions C94_set_again_refuted.
(** Metadata are equal if their three names and their units are. *)
Theorem C94_equal : forall U a b, meta_eq U a b = Ok true <-> same_meta U a b.
Proof. exact eq_true. Qed.
Print Assumptions C94_equal.
Theorem C94_compare_partial : forall U a b, (forall s, (m_units a = UText s \/ m_units b = UText s) -> (exists t, m_units a = UText t) /\ (exists t, m_units b = UText t)) -> exists r, meta_eq U a b = Ok r.
Proof. exact eq_total_partial. Qed.
Print Assumptions C94_compare_partial.
(** Refuted: any two can be compared. *)
Theorem C94_compare_refuted : forall U u t, U t = None -> exists a b, m_units a = UText t /\ m_units b = UUnit u /\ meta_eq U a b = Raises ValueError.
Proof. exact eq_raises. Qed.
Print Assumptions C94_compare_refuted.
(** Converting units: the amounts stay the same, missing values stay missing, the units are those asked for; nothing else changes. *)
Theorem C94_convert : forall U l new u v x, wanted U new = Some v -> m_units (l_meta l) = UUnit u -> u_dim u = u_dim v -> real v -> l_data l = Nums x ->
  exists l' y, convert_units U l new = (l', None) /\ l_data l' = Nums y /\ same_amounts u v x y /\ m_units (l_meta l') = UUnit v /\ same_names l l' /\ l_flat l' = l_flat l.
Proof. exact converts. Qed.
Print Assumptions C94_convert.
Theorem C94_convertible : forall U l new l', convert_units U l new = (l', None) -> exists u v, m_units (l_meta l) = UUnit u /\ wanted U new = Some v /\ u_dim u = u_dim v /\ exists x, l_data l = Nums x.
Proof. exact convertible. Qed.
Print Assumptions C94_convertible.
Theorem C94_not_converted : forall U l new l' e, convert_units U l new = (l', Some e) -> l' = l /\ (e = ValueError \/ e = TypeError).
Proof. exact refuses. Qed.
Print Assumptions C94_not_converted.
Theorem C94_there_and_back : forall U l u v l1 l2 x, m_units (l_meta l) = UUnit u -> real u -> real v -> l_data l = Nums x -> convert_units U l (UUnit v) = (l1, None) -> convert_units U l1 (UUnit u) = (l2, None) ->
  exists y, l_data l2 = Nums y /\ same_values x y /\ m_units (l_meta l2) = UUnit u.
Proof. exact there_and_back. Qed.
Print Assumptions C94_there_and_back.
Theorem C94_degrees : forall U m a o u, m_units m = UText (lit "deg") -> U (lit "degrees") = Some u -> m_units (l_meta (new_coord U m a o)) = UUnit u.
Proof. exact deg. Qed.
Print Assumptions C94_degrees.

(** *** Times *)
(** Converted to standard time, a coordinate has the days of the moments it told ... *)
Theorem C94_times : forall U l stamp ms, tells U l stamp ms -> exists l' d, convert_to_std_time U l stamp = (l', None) /\ l_data l' = Nums d /\ days_of ms d /\ m_units (l_meta l') = UUnit (mkUnit None 86400 0) /\ same_names l l'.
Proof. exact to_std. Qed.
Print Assumptions C94_times.
(** ... and if it tells no moments, that is an error and it stays as it is. *)
Theorem C94_times_told : forall U l stamp l', convert_to_std_time U l stamp = (l', None) -> exists ms, tells U l stamp ms.
Proof. exact std_told. Qed.
Print Assumptions C94_times_told.
Theorem C94_times_failed : forall U l stamp l' e, convert_to_std_time U l stamp = (l', Some e) -> l' = l.
Proof. exact std_failed. Qed.
Print Assumptions C94_times_failed.
(** Refuted: the time stamp of the file is used if the units are those of a duration, as the documentation's "day". *)
Theorem C94_stamp_refuted : forall V U name long h l, knows V -> U (lit "day") = Some (mkUnit (Some 1) 86400 0) -> U (lit "day since 2000-01-01") = Some (mkUnit None 86400 12622780800) ->
  new_metadata V U name [] long (UText (lit "day")) h = Ok (l_meta l) -> convert_to_std_time U l (Some (lit "2000-01-01")) = (l, Some ValueError).
Proof. exact day_refused. Qed.
Print Assumptions C94_stamp_refuted.
(** Standard times become dates and, either way, the same times again. *)
Theorem C94_dates : forall U l x, U (lit "DateTime Object") = None -> l_data l = Nums x -> m_units (l_meta l) = UUnit (mkUnit None 86400 0) ->
  exists l' ms, convert_standard_time_to_datetime U l = (l', None) /\ l_data l' = Dates ms /\ days_of ms x /\ same_names l l' /\ snd (data_flattened l') = l_data l' /\
  exists l2 y, convert_to_std_time U l' None = (l2, None) /\ convert_datetime_to_standard_time U l' = (l2, None) /\ l_data l2 = Nums y /\ same_values x y /\ m_units (l_meta l2) = UUnit (mkUnit None 86400 0) /\ same_names l l2.
Proof. exact dates_of_std. Qed.
Print Assumptions C94_dates.
Theorem C94_other_units : forall U l u, m_units (l_meta l) = UUnit u -> ~ same_unit u (mkUnit None 86400 0) -> convert_standard_time_to_datetime U l = (l, None).
Proof. exact dates_other. Qed.
Print Assumptions C94_other_units.
(** Refuted: what is not in standard time is left as it is - a second call is an error. *)
Theorem C94_dates_refuted : forall U l, U (lit "DateTime Object") = None -> m_units (l_meta l) = UText (lit "DateTime Object") -> convert_standard_time_to_datetime U l = (l, Some ValueError).
Proof. exact dates_again. Qed.
Print Assumptions C94_dates_refuted.

(** *** Range, flattened data, history *)
Theorem C94_range : forall U l x, l_data l = Nums x -> exists l', update_range U l = (l', None) /\ l_data l' = Nums x /\ m_units (l_meta l') = m_units (l_meta l) /\
  (x = [] -> m_range (l_meta l') = EmptyRange) /\
  (x <> [] -> ~ standard_time U (m_units (l_meta l)) -> exists a b, m_range (l_meta l') = Range a b /\ least x a /\ greatest x b) /\
  (x <> [] -> standard_time U (m_units (l_meta l)) -> exists a b, m_range (l_meta l') = DateRange (option_map (Qmult 86400) a) (option_map (Qmult 86400) b) /\ least x a /\ greatest x b).
Proof. exact range_numbers. Qed.
Print Assumptions C94_range.
(** Refuted: the range stays that of the data - converting units leaves it. *)
Theorem C94_range_refuted : forall U, exists l l' l'' a b, update_range U in_metres = (l, None) /\ m_range (l_meta l) = Range (Some a) (Some b) /\ convert_units U l (UUnit km) = (l', None) /\ update_range U l' = (l'', None) /\ m_range (l_meta l'') <> m_range (l_meta l').
Proof. exact range_stale. Qed.
Print Assumptions C94_range_refuted.
(** The flattened data are the data if they were never asked for before, or are a view of them ... *)
Theorem C94_flattened_partial : forall l, (l_flat l = NotKept \/ l_flat l = View) -> snd (data_flattened l) = l_data l /\ l_data (fst (data_flattened l)) = l_data l.
Proof. exact flat_fresh. Qed.
Print Assumptions C94_flattened_partial.
Theorem C94_flattened_units_partial : forall U l new l', l_flat l = View \/ l_flat l = NotKept -> convert_units U l new = (l', None) -> snd (data_flattened l') = l_data l'.
Proof. exact flat_converted. Qed.
Print Assumptions C94_flattened_units_partial.
Theorem C94_flattened_times_partial : forall U l stamp l', l_flat l = NotKept -> convert_to_std_time U l stamp = (l', None) -> snd (data_flattened l') = l_data l'.
Proof. exact flat_not_asked. Qed.
Print Assumptions C94_flattened_times_partial.
(** ... but after a conversion of times they are the old times, and after one of units of data that do not lie in order in memory, the old values. *)
Theorem C94_flattened_times_refuted : forall U, exists l a l', data_flattened times_1970 = (l, a) /\ a = l_data l /\ convert_to_std_time U l None = (l', None) /\ snd (data_flattened l') = a /\ l_data l' <> a.
Proof. exact flat_stale. Qed.
Print Assumptions C94_flattened_times_refuted.
Theorem C94_flattened_units_refuted : forall U, exists l, l_data l = l_data in_metres /\ l_meta l = l_meta in_metres /\ l_flat l = NotKept /\ exists l1 a l2, data_flattened l = (l1, a) /\ a = l_data l /\ convert_units U l1 (UUnit km) = (l2, None) /\ snd (data_flattened l2) = a /\ l_data l2 <> a.
Proof. exact flat_copy_stale. Qed.
Print Assumptions C94_flattened_units_refuted.
(** The history is one line for each entry, with its time, in their order. *)
Theorem C94_history : forall es l, m_history (l_meta l) = [] -> Forall (fun e => fst e <> []) es ->
  m_history (l_meta (add_all l es)) = join_on "010" (map (fun e => fst e ++ snd e) es) /\ l_data (add_all l es) = l_data l /\ m_units (l_meta (add_all l es)) = m_units (l_meta l).
Proof. exact history_lines. Qed.
Print Assumptions C94_history.

(** *** examples *)
Definition few (s : str) : option unit :=
  if str_eqb s (lit "m") then Some metre else if str_eqb s (lit "km") then Some km else if str_eqb s (lit "day") then Some (mkUnit (Some 1) 86400 0)
  else if str_eqb s (lit "day since 2000-01-01") then Some (mkUnit None 86400 12622780800) else if str_eqb s (lit "days since 2000-01-01") then Some (mkUnit None 86400 12622780800) else if str_eqb s (lit "degrees") then Some (mkUnit (Some 2) 1 0) else None.
Example C94_ex_tidy : tidied (lit "Days Since: 2000-01-01,") (lit "days since 2000-01-01") /\ set_units few (UText (lit "Days Since: 2000-01-01,")) = UUnit (mkUnit None 86400 12622780800) /\ tidied (lit "#/cm3") (lit "1/cm3").
Proof. split; [apply tidied_iff; vm_compute; reflexivity|]. split; [vm_compute; reflexivity|apply tidied_iff; vm_compute; reflexivity]. Qed.
Example C94_ex_units : wanted few (UText (lit "km")) = Some km /\ real km /\ exists l', convert_units few in_metres (UText (lit "km")) = (l', None) /\ match l_data l' with Nums [Some a; Some b] => Qeq_bool a 1 && Qeq_bool b 3 = true | _ => False end.
Proof. split; [vm_compute; reflexivity|]. split; [vm_compute; discriminate|]. eexists. split; [vm_compute; reflexivity|]. vm_compute. reflexivity. Qed.
Example C94_ex_since : tells few times_1970 None (map (option_map (amount since_1970)) [Some 0%Q; Some 86400%Q]).
Proof. apply ByUnits; reflexivity. Qed.
Definition with_stamp : lazy := mkLazy (mkMeta (lit "time") (Some (lit "time")) [] (UText (lit "day of the flight")) NoRange []) (Nums [Some 1%Q; None]) true NotKept.
Example C94_ex_stamp : tells few with_stamp (Some (lit "2000-01-01")) (map (option_map (amount (mkUnit None 86400 12622780800))) [Some 1%Q; None]).
Proof. eapply ByStamp; [reflexivity| |reflexivity|vm_compute; reflexivity|vm_compute; reflexivity|reflexivity|reflexivity]. intros rest. vm_compute. discriminate. Qed.
Definition table (s : str) : bool := existsb (str_eqb s) [lit "latitude"; lit "longitude"; lit "altitude"; lit "air_pressure"; lit "time"; lit "air_temperature"].
Example C94_ex_knows : knows table /\ allowed table (Some (lit "air_temperature")) /\ ~ allowed table (Some (lit "hot air")).
Proof. split; [intros r H; repeat destruct H as [<-|H]; try reflexivity; destruct H|]. split; [right; eexists; split; [reflexivity|vm_compute; reflexivity]|]. intros [H|(n & [= <-] & H)]; [discriminate|vm_compute in H; discriminate]. Qed.
