(** C71: the observations of several NCAR-RAF or GASSP files. *)
From Coq Require Import String.
From Verif Require Import Base PyStr QBase UngrModel UngrSpec RafModel RafSpec RafProofs Raf2Proofs Raf3Proofs Raf4Proofs Raf5Proofs.
From Coq Require Import List.
Import ListNotations.
Open Scope string_scope. Open Scope list_scope. Open Scope nat_scope. Notation length := List.length.

(** The rows read are those of all files, one file after the other, each with the time, position and value of its own file; points without a complete position are left out. *)
Theorem C71_partial : forall float_of convert f rest name d t la lo al p,
  read_raf float_of convert (f :: rest) name = Ok d -> described f t la lo al -> pressure_named f p -> Forall well_formed (f :: rest) -> stamps_alike (f :: rest) ->
  Forall (fun g => source_on_times g t la /\ source_on_times g t lo /\ source_on_times g t al /\ (forall n, In n p -> on_times g t n) /\ on_times g t name) (f :: rest) ->
  map c_std (u_coords d) = std_names p /\ exists raw, Forall2 (own_row float_of convert t la lo al p name) (all_points_of (f :: rest) t) raw /\ rows d = filter located raw.
Proof. exact rows_plain. Qed.
Print Assumptions C71_partial.
(** The same for a variable with one more dimension. *)
Theorem C71_bins_partial : forall float_of convert f rest name bin dn nb d t la lo al p vt vn,
  read_raf float_of convert (f :: rest) name = Ok d -> described f t la lo al -> pressure_named f p -> Forall well_formed (f :: rest) -> stamps_alike (f :: rest) ->
  Forall (positions_on_times t la lo al p) (f :: rest) ->
  variable f t = Some vt -> variable f name = Some vn -> v_dims vn = v_dims vt ++ [dn] -> ~ In dn (v_dims vt) -> ~ In dn p -> (forall s, In s [la; lo; al] -> s <> In_variable dn) -> bin_variable f dn bin ->
  (forall g, In g (f :: rest) -> option_map v_data (variable g bin) = option_map v_data (variable f bin) /\ count_of g bin = nb /\ forall v w, variable g t = Some v -> variable g name = Some w -> v_shape w = v_shape v ++ [nb]) ->
  map c_std (u_coords d) = std_names p ++ [match variable f bin with Some w => v_std w | None => None end] /\
  exists raw, Forall2 (own_bin float_of convert t la lo al p bin name) (all_bins_of (f :: rest) t bin) raw /\ rows d = filter located raw.
Proof. exact rows_bins. Qed.
Print Assumptions C71_bins_partial.
(** Files that can be read the way the first one describes are read. *)
Theorem C71_read : forall float_of convert f rest t la lo al p name tail,
  described f t la lo al -> pressure_named f p -> stamps_alike (f :: rest) -> Forall (can_be_read float_of convert f t la lo al p name tail) (f :: rest) -> exists d, read_raf float_of convert (f :: rest) name = Ok d.
Proof. exact read_complete. Qed.
Print Assumptions C71_read.
(** Positions are never guessed, and a file has one description only. *)
Theorem C71_described : forall float_of f rest name d convert, read_raf float_of convert (f :: rest) name = Ok d -> exists t la lo al p, described f t la lo al /\ pressure_named f p.
Proof. exact never_guessed. Qed.
Print Assumptions C71_described.
Theorem C71_one_description : forall f t la lo al t' la' lo' al', described f t la lo al -> described f t' la' lo' al' -> t = t' /\ la = la' /\ lo = lo' /\ al = al'.
Proof. exact described_unique. Qed.
Print Assumptions C71_one_description.
(** The variables offered are those of the first file whose dimensions start like those of the times. *)
Theorem C71_names : forall float_of f rest l t la lo al, variable_names float_of (f :: rest) = Ok l -> described f t la lo al ->
  forall n, In n l <-> exists v tv, In (n, v) (f_vars f) /\ v_dims v <> [] /\ variable f t = Some tv /\ starts_like (v_dims v) (v_dims tv).
Proof. exact names_offered. Qed.
Print Assumptions C71_names.
Theorem C71_file_types : forall is_file attrs, (exists ft, file_format is_file attrs = Ok ft) <->
  is_file = true /\ exists l, attrs = Some l /\ (attribute (mkFile l []) (lit "GASSP_Version") <> None \/ attribute (mkFile l []) (lit "Conventions") = Some (Txt (lit "NCAR-RAF/nimbus"))).
Proof. exact file_types. Qed.
Print Assumptions C71_file_types.
(** Not always as its own file says: a height only a later file gives is 0 ... *)
Theorem C71_refuted_height : exists f g d, well_formed f /\ well_formed g /\ on_times f (lit "t") (lit "aod") /\ on_times g (lit "t") (lit "aod") /\
  described f (lit "t") (In_attribute (lit "Station_Lat")) (In_attribute (lit "Station_Lon")) Sea_level /\
  described g (lit "t") (In_attribute (lit "Station_Lat")) (In_attribute (lit "Station_Lon")) (In_attribute (lit "Station_Altitude")) /\
  read_raf no_float as_given [f; g] (lit "aod") = Ok d /\ forallb located (rows d) = true /\
  ~ Forall2 (own_description no_float as_given (lit "aod")) (all_points_of [f; g] (lit "t")) (rows d).
Proof. exact height_lost. Qed.
Print Assumptions C71_refuted_height.
(** ... the bins are those of the first file ... *)
Theorem C71_refuted_bins : exists f g d, well_formed f /\ well_formed g /\ (forall h, In h [f; g] -> described h (lit "t") (In_attribute (lit "Station_Lat")) (In_attribute (lit "Station_Lon")) Sea_level /\ pressure_named h [] /\
    option_map v_dims (variable h (lit "n")) = Some [lit "t"; lit "size"] /\ option_map v_dims (variable h (lit "size")) = Some [lit "size"]) /\
  read_raf no_float as_given [f; g] (lit "n") = Ok d /\ forallb located (rows d) = true /\
  ~ Forall2 (own_bin no_float as_given (lit "t") (In_attribute (lit "Station_Lat")) (In_attribute (lit "Station_Lon")) Sea_level [] (lit "size") (lit "n")) (all_bins_of [f; g] (lit "t") (lit "size")) (rows d).
Proof. exact bins_lost. Qed.
Print Assumptions C71_refuted_bins.
(** ... and a variable with the bins before the times has its values at other times and bins. *)
Theorem C71_refuted_order : exists f d v tv bv, well_formed f /\ described f (lit "t") (In_attribute (lit "Station_Lat")) (In_attribute (lit "Station_Lon")) Sea_level /\
  variable f (lit "n") = Some v /\ v_dims v = [lit "size"; lit "t"] /\ variable f (lit "t") = Some tv /\ v_dims tv = [lit "t"] /\ variable f (lit "size") = Some bv /\ v_dims bv = [lit "size"] /\
  read_raf no_float as_given [f] (lit "n") = Ok d /\ exists r j b,
    In r (rows d) /\ nth_error (fst r) 0 = nth_error (v_data tv) j /\ last (fst r) None = nth b (v_data bv) None /\ NoDup (v_data tv) /\ NoDup (v_data bv) /\ NoDup (v_data v) /\
    nth_error (v_data v) (b * length (v_data tv) + j) <> Some (snd r).
Proof. exact order_lost. Qed.
Print Assumptions C71_refuted_order.
(** Examples: two stations, the second higher; one with a pressure; bins *)
Example ex_two_stations : match read_raf no_float as_given [high_file; station_file 52 [(lit "station_altitude", Txt (lit "80 m"))] [(lit "t", var1 [lit "t"] [1] [13%Q]); (lit "aod", var1 [lit "t"] [1] [1%Q])]] (lit "aod") with
  Ok d => rows d = [([Some 11%Q; Some 51%Q; Some 7%Q; Some 500%Q], Some (2 # 10)%Q); ([Some 12%Q; Some 51%Q; Some 7%Q; Some 500%Q], Some (3 # 10)%Q); ([Some 13%Q; Some 52%Q; Some 7%Q; Some 0%Q], Some 1%Q)] | Raises _ => False end.
Proof. vm_compute. reflexivity. Qed.
Example ex_bins : match read_raf no_float as_given [bins1; bins1] (lit "n") with Ok d => length (rows d) = 8 /\ nth_error (rows d) 2 = Some ([Some 11%Q; Some 50%Q; Some 7%Q; Some 0%Q; Some 1%Q], Some 3%Q) | Raises _ => False end.
Proof. vm_compute. split; reflexivity. Qed.
Example ex_readable : can_be_read no_float as_given high_file (lit "t") (In_attribute (lit "Station_Lat")) (In_attribute (lit "Station_Lon")) (In_attribute (lit "Station_Altitude")) [] (lit "aod") [] high_file.
Proof.
  split; [formed|]. split; [eexists; eexists; split; [vm_compute; reflexivity|]; split; [vm_compute; reflexivity|eexists; reflexivity]|]. split.
  - intros x [->|[[]|[H|[H|H]]]]; try discriminate H. split; [vm_compute; discriminate|intros v w [= <-] [= <-]; split; reflexivity].
  - split; [intros a [[= <-]|[= <-]]; eexists; eexists; (split; [vm_compute; reflexivity|constructor])|]. split; [intros a [= <-]; eexists; eexists; split; [vm_compute; reflexivity|constructor; constructor]|intros H; exact H].
Qed.
Example ex_listed : described (mkFile [(lit "COORDINATES", Txt (lit "LONC LATC GGALTC Time"))] [(lit "Time", var1 [lit "Time"] [1] [1%Q]); (lit "LATC", var1 [lit "Time"] [1] [1%Q]); (lit "LONC", var1 [lit "Time"] [1] [1%Q]); (lit "GGALTC", var1 [lit "Time"] [1] [1%Q])])
  (lit "Time") (In_variable (lit "LATC")) (In_variable (lit "LONC")) (In_variable (lit "GGALTC")).
Proof.
  apply (listed _ (lit "LONC LATC GGALTC Time")); [reflexivity|reflexivity|exact (words_exist (lit "LONC LATC GGALTC Time"))|]. intros n [<-|[<-|[<-|[<-|[]]]]]; vm_compute; discriminate.
Qed.
