(** C75: the variables of gridded NetCDF files. *)
From Coq Require Import String.
From Verif Require Import Base PyStr QBase NcgModel NcgSpec NcgProofs Ncg2Proofs.
From Coq Require Import List Lia.
Import ListNotations.
Open Scope string_scope. Open Scope list_scope. Open Scope nat_scope. Notation length := List.length.

(** The one variable with that name, its data and dimensions unchanged but for a time dimension, in standard time; added to it, the heights and pressures of the files whose shapes fit.  For whatever iris makes of the cubes of several files and whatever units stand for. *)
Theorem C75_read_partial : forall together std_time raw v c, one_cube together raw (has_name v) c -> plain_cube c -> (forall n g, In n vertical -> source together raw n g -> ~ overhangs g c) -> convertible std_time c -> (forall a, one_time_aux c a -> x_dims a = []) ->
  exists r, create_data_object together std_time raw (Some v) = Ok r /\ same_variable c r /\ times_read std_time c r /\ exists h p, q_aux r = q_aux c ++ h ++ p /\ heights together raw c h /\ pressures together raw c p.
Proof. exact read_ok. Qed.
Print Assumptions C75_read_partial.
(** Where the dimensions of the heights (or pressures) are the first ones of the variable, every cell has the height of its own place. *)
Theorem C75_own_place_partial : forall c g std units f a, gives c g std units f a -> length (q_dims g) = length (q_shape g) -> q_dims g = firstn (length (q_dims g)) (q_dims c) ->
  forall i pl, cell c i -> at_place (q_dims c) i pl -> exists j, at_place (q_dims g) j (firstn (length j) pl) /\ aux_at a i = option_map f (q_at g j).
Proof. exact own_place. Qed.
Print Assumptions C75_own_place_partial.
(** No cube of that name, or several that iris cannot make one of: InvalidVariableError. *)
Theorem C75_refused : forall together std_time raw v, no_cube together raw (has_name v) -> create_data_object together std_time raw (Some v) = Raises InvalidVariableError.
Proof. exact read_refused. Qed.
Print Assumptions C75_refused.
(** Files the product cannot read: heights or pressures with further dimensions after those of the variable; the time an auxiliary coordinate over dimensions. *)
Theorem C75_overhang : forall together std_time raw v c n g, one_cube together raw (has_name v) c -> In n vertical -> source together raw n g -> overhangs g c -> create_data_object together std_time raw (Some v) = Raises IndexError.
Proof. exact read_overhang. Qed.
Print Assumptions C75_overhang.
Theorem C75_aux_time : forall together std_time raw v c a, one_cube together raw (has_name v) c -> plain_cube c -> (forall n g, In n vertical -> source together raw n g -> ~ overhangs g c) -> one_time_aux c a -> x_dims a <> [] -> create_data_object together std_time raw (Some v) = Raises ValueError.
Proof. exact read_aux_time. Qed.
Print Assumptions C75_aux_time.
(** The names offered are those of the cubes over space and time; one that no other cube has can be read. *)
Theorem C75_names : forall of_space_or_time loaded n, In n (get_variable_names of_space_or_time loaded) <-> exists c, In c loaded /\ space_time of_space_or_time c /\ offered_as c n.
Proof. exact names_ok. Qed.
Print Assumptions C75_names.
Theorem C75_offered : forall together pre c post n, offered_as c n -> n <> lit "unknown" -> (forall d, In d (pre ++ post) -> ~ has_name n d) -> one_cube together (pre ++ c :: post) (has_name n) c.
Proof. exact offered_found. Qed.
Print Assumptions C75_offered.

(** *** examples *)
Definition never (_ : list gcube) : option gcube := None.
Definition hours (u : str) (x : Q) : option Q := if str_eqb u (lit "hours since 1600-01-01") then Some (x / 24)%Q else None.
Definition time_c : dimc := mkDimc (Some (lit "time")) None (Some (lit "time")) (lit "hours since 1600-01-01") [24; 48]%Q.
Definition lat_c : dimc := mkDimc (Some (lit "latitude")) None (Some (lit "lat")) (lit "degrees") [10; 20; 30]%Q.
Definition lev_c : dimc := mkDimc (Some (lit "model_level_number")) None (Some (lit "lev")) (lit "1") [1; 2]%Q.
Definition at2 (l : list (list Q)) (i : list nat) : option Q := match i with a :: b :: _ => match nth_error l a with Some r => nth_error r b | None => None end | _ => None end.
Definition t2m : gcube := mkGcube (Some (lit "t2m")) None (Some (lit "temperature")) (lit "K") [2; 3] [Some time_c; Some lat_c] (at2 [[1; 2; 3]; [4; 5; 6]]%Q) [] [].
Definition geo : gcube := mkGcube (Some (lit "z")) (Some (lit "geopotential_height")) None (lit "m") [2; 3] [Some time_c; Some lat_c] (at2 [[100; 200; 300]; [110; 210; 310]]%Q) [] [].
Definition pres : gcube := mkGcube (Some (lit "p")) (Some (lit "air_pressure")) None (lit "Pa") [2; 3] [Some lev_c; Some lat_c] (at2 [[1000; 1001; 1002]; [900; 901; 902]]%Q) [] [].
Example C75_ex_hyps : one_cube never [t2m; geo; pres] (has_name (lit "t2m")) t2m /\ plain_cube t2m /\ (forall n g, In n vertical -> source never [t2m; geo; pres] n g -> ~ overhangs g t2m) /\ convertible hours t2m /\ (forall a, one_time_aux t2m a -> x_dims a = []) /\ one_time_dim t2m.
Proof.
  split; [apply (load_one never _ (named_cube (lit "t2m"))); [intros; apply named_cube_iff|vm_compute; reflexivity]|]. split; [split; [intros a []|intros k [E|[E|[]]]; injection E as <-; split; discriminate]|]. split.
  { intros n g Hn S (m & more & E). apply source_iff in S. destruct Hn as [<-|[<-|[<-|[]]]]; vm_compute in S; [discriminate|injection S as <-; discriminate|injection S as <-; discriminate]. }
  split; [intros k [E|[E|[]]]; injection E as <-; [intros _ x _; eexists; reflexivity|discriminate]|]. split; [intros a [F _]; exfalso; inversion F as [|? ? X _]; subst; apply X; exists time_c; split; reflexivity|].
  split; [|constructor]. exists [], (Some time_c), [Some lat_c]. split; [reflexivity|]. split; [exists time_c; split; reflexivity|]. repeat constructor. intros (d & E & T). injection E as <-. discriminate T.
Qed.
Example C75_ex_read : exists r a p t l, create_data_object never hours [t2m; geo; pres] (Some (lit "temperature")) = Ok r /\ q_aux r = [a; p] /\ q_dims r = [Some t; Some l] /\ k_points t = [24 / 24; 48 / 24]%Q /\ k_units t = lit "days since 1600-01-01 00:00:00" /\
  x_std a = Some (lit "altitude") /\ aux_at a [1; 2] = Some 310%Q /\ x_std p = Some (lit "air_pressure").
Proof. do 5 eexists. split; [vm_compute; reflexivity|]. split; [reflexivity|]. split; [reflexivity|]. repeat split; vm_compute; reflexivity. Qed.
Example C75_ex_place : gives t2m geo "altitude" "meter" (fun v => v) (from_geopotential_height geo) /\ q_dims geo = firstn 2 (q_dims t2m) /\ cell t2m [1; 2] /\ at_place (q_dims t2m) [1; 2] [(Some (lit "time"), Some 48%Q); (Some (lit "latitude"), Some 30%Q)].
Proof. split; [apply positional_gives; exists []; reflexivity|]. split; [reflexivity|]. split; [repeat constructor|]. apply (at_coord time_c); [reflexivity|]. apply (at_coord lat_c); [reflexivity|constructor]. Qed.
Example C75_ex_names : get_variable_names (fun u => negb (str_eqb u (lit "1"))) [t2m; geo; pres] = [lit "t2m"; lit "z"].
Proof. vm_compute. reflexivity. Qed.
Definition series : gcube := mkGcube (Some (lit "total")) None None (lit "K") [2] [Some time_c] (fun i => match i with [j] => nth_error [1; 2]%Q j | _ => None end) [] [].
Example C75_ex_overhang : one_cube never [series; geo] (has_name (lit "total")) series /\ source never [series; geo] "geopotential_height" geo /\ overhangs geo series /\ create_data_object never hours [series; geo] (Some (lit "total")) = Raises IndexError.
Proof.
  split; [apply (load_one never _ (named_cube (lit "total"))); [intros; apply named_cube_iff|vm_compute; reflexivity]|]. split; [apply source_iff; vm_compute; reflexivity|]. split; [exists 3, []; reflexivity|vm_compute; reflexivity].
Qed.
Definition swath_time : auxc := mkAux (Some (lit "time")) None None (lit "hours since 1600-01-01") [0] [2] (fun i => match i with [j] => nth_error [24; 48]%Q j | _ => None end).
Definition swath : gcube := mkGcube (Some (lit "s")) None None (lit "K") [2] [None] (fun _ => Some 1%Q) [swath_time] [].
Example C75_ex_aux_time : one_time_aux swath swath_time /\ x_dims swath_time <> [] /\ create_data_object never hours [swath] (Some (lit "s")) = Raises ValueError.
Proof. split; [apply one_time_aux_iff; split; vm_compute; reflexivity|]. split; [discriminate|vm_compute; reflexivity]. Qed.

(** Lengths are all that is compared: a pressure over levels becomes one over times, for as many times as levels. *)
Theorem C75_place_refuted : exists raw c g r a k k' more more', one_cube never raw (has_name (lit "t2m")) c /\ source never raw "air_pressure" g /\ q_dims c = Some k :: more /\ q_dims g = Some k' :: more' /\ k_std k = Some (lit "time") /\ k_std k' = Some (lit "model_level_number") /\
  create_data_object never hours raw (Some (lit "t2m")) = Ok r /\ In a (q_aux r) /\ x_std a = Some (lit "air_pressure") /\ forall t i, t < 2 -> i < 3 -> aux_at a [t; i] = q_at g [t; i].
Proof.
  exists [t2m; geo; pres], t2m, pres. do 2 eexists. do 4 eexists. split; [apply C75_ex_hyps|]. split; [apply source_iff; vm_compute; reflexivity|]. split; [reflexivity|]. split; [reflexivity|]. split; [reflexivity|]. split; [reflexivity|]. split; [vm_compute; reflexivity|]. split; [right; left; reflexivity|]. split; [reflexivity|].
  intros t i Ht Hi. do 2 (destruct t as [|t]; [do 3 (destruct i as [|i]; [vm_compute; reflexivity|]); lia|]). lia.
Qed.
Print Assumptions C75_place_refuted.
(** The units of the files are not looked at: a pressure in hPa is taken for one in Pa. *)
Definition hpa : gcube := mkGcube (Some (lit "p")) (Some (lit "air_pressure")) None (lit "hPa") [2; 3] [Some time_c; Some lat_c] (at2 [[1000; 1001; 1002]; [900; 901; 902]]%Q) [] [].
Theorem C75_units_refuted : exists raw g r a, source never raw "air_pressure" g /\ q_units g = lit "hPa" /\ q_at g [0; 0] = Some 1000%Q /\ create_data_object never hours raw (Some (lit "t2m")) = Ok r /\ In a (q_aux r) /\ x_std a = Some (lit "air_pressure") /\ x_units a = lit "Pa" /\ aux_at a [0; 0] = Some 1000%Q.
Proof. exists [t2m; hpa], hpa. do 2 eexists. split; [apply source_iff; vm_compute; reflexivity|]. split; [reflexivity|]. split; [reflexivity|]. split; [vm_compute; reflexivity|]. split; [left; reflexivity|]. repeat split; vm_compute; reflexivity. Qed.
Print Assumptions C75_units_refuted.
(** The time of a variable for one moment keeps the units of the file. *)
Definition now : auxc := mkAux (Some (lit "time")) None None (lit "hours since 1600-01-01") [] [] (fun _ => Some 24%Q).
Definition map_now : gcube := mkGcube (Some (lit "m")) None None (lit "K") [3] [Some lat_c] (fun _ => Some 1%Q) [now] [].
Theorem C75_time_refuted : exists raw c a r, one_cube never raw (has_name (lit "m")) c /\ one_time_aux c a /\ hours (x_units a) 24%Q = Some (24 / 24)%Q /\ create_data_object never hours raw (Some (lit "m")) = Ok r /\ In a (q_aux r) /\ aux_at a [0] = Some 24%Q.
Proof.
  exists [map_now], map_now, now. eexists. split; [apply (load_one never _ (named_cube (lit "m"))); [intros; apply named_cube_iff|vm_compute; reflexivity]|]. split; [apply one_time_aux_iff; split; vm_compute; reflexivity|]. split; [vm_compute; reflexivity|]. split; [vm_compute; reflexivity|]. split; [left; reflexivity|reflexivity].
Qed.
Print Assumptions C75_time_refuted.
(** A name that is offered need not be readable: another variable may have it as its long name. *)
Definition other : gcube := mkGcube (Some (lit "u")) None (Some (lit "t2m")) (lit "K") [2; 3] [Some time_c; Some lat_c] (at2 [[0; 0; 0]; [0; 0; 0]]%Q) [] [].
Theorem C75_offered_refuted : exists raw n, In n (get_variable_names (fun _ => true) raw) /\ create_data_object never hours raw (Some n) = Raises InvalidVariableError.
Proof. exists [t2m; other], (lit "t2m"). split; [vm_compute; auto|vm_compute; reflexivity]. Qed.
Print Assumptions C75_offered_refuted.
