(** C101: limits and grids given as dates. *)
From Coq Require Import ZArith.
From Verif Require Import Base PyStr QBase LonModel LonSpec DateModel DateSpec DateProofs UngrModel UngrSpec SubsetModel SubsetSpec GridIndexModel AggModel DsModel DsSpec DsProofs Ds2Proofs.
From Coq Require Import List.
Import ListNotations.
Open Scope string_scope. Open Scope list_scope. Open Scope Q_scope. Notation length := List.length.

(** ** Example: four points in 2008 and 2009, at 0:00 of a day, 12:00, half a second before the end of 2008, and 0:00 of New Year *)
Definition std_unit : timeunit := mkUnit (fun x => 86400 * x + qinstant std_ref) (fun t => (qinstant t - qinstant std_ref) / 86400).
Definition hour_unit : timeunit := mkUnit (fun x => 3600 * x + qinstant std_ref) (fun t => (qinstant t - qinstant std_ref) / 3600).
Definition ex_units (n : str) : res timeunit := if str_eq_dec n (lit "time") then Ok std_unit else Raises ValueError.
Definition ex_day (y m d : Z) : Q := t_write std_unit (mkDT y m d 0 0 0).
Definition ex_coord (name axis : String.string) (p : list Q) : coord := mkCoord (Some (lit name)) [] (lit name) (lit axis) [length p] (map Some p).
Definition ex_times : list Q := [ex_day 2008 2 29; ex_day 2008 3 1 + (1#2); ex_day 2009 1 1 - (1#172800); ex_day 2009 1 1].
Definition ex_data : udata := mkU [ex_coord "latitude" "Y" [10; 20; 30; 40]; ex_coord "time" "T" ex_times] [4%nat] [Some 100; Some 200; Some 300; Some 400].
Definition kept (r : res (option udata)) : res (option (list (option Q))) := bind r (fun o => Ok (option_map u_values o)).
Example ex_proper : proper ex_data.
Proof.
  split; [repeat constructor|]. split; [discriminate|]. split; [repeat constructor; vm_compute; intuition discriminate|].
  intros [|[|[|i]]] [|[|[|j]]] a b; cbn [nth_error u_coords ex_data]; intros Ha Hb; try discriminate Ha; try discriminate Hb; auto; injection Ha as <-; injection Hb as <-; intros E; vm_compute in E; discriminate E.
Qed.
Example ex_standard : standard_days std_unit /\ standard_hours hour_unit.
Proof. split; split; [intros x; reflexivity|intros t; cbn [t_read t_write std_unit]; field|intros x; reflexivity|intros t; cbn [t_read t_write hour_unit]; field]. Qed.

(** ** Exactly the points within the limits, which may be numbers or dates, in all ways of writing them *)
Theorem C101_dates_partial : forall units d kws ls, proper d -> means d kws ls -> NoDup (map fst ls) -> Forall (reasonable units d) ls -> located_rows d <> [] ->
  exists k f r rs, subset_dated units d kws = Ok r /\ (forall x, same_meridian x (f x)) /\ (is_lon d k \/ forall x, f x = x) /\
    chosen (meets units d ls) (map (change k f) (located_rows d)) rs /\ result_rows d rs r.
Proof. exact subset_dates. Qed.
Print Assumptions C101_dates_partial.
Definition leap_day : partial := mkPartial 2008 [Some 2%Z; Some 29%Z; None; None; None].
Example C101_dates_example :
  kept (subset_dated ex_units ex_data [(lit "t", One (Partial leap_day))]) = Ok (Some [Some 100]) /\
  kept (subset_dated ex_units ex_data [(lit "time", Several [Date (mkDT 2008 3 1 12 0 0); Date (mkDT 2009 1 1 0 0 0)]); (lit "y", Range Nothing (Number 30))]) = Ok (Some [Some 200; Some 300]) /\
  means ex_data [(lit "time", Range (Date (mkDT 2008 3 1 12 0 0)) (Date (mkDT 2009 1 1 0 0 0)))] [(1%nat, Dates (mkDT 2008 3 1 12 0 0) (mkDT 2009 1 1 0 0 0))] /\
  reasonable ex_units ex_data (1%nat, Dates (mkDT 2008 3 1 12 0 0) (mkDT 2009 1 1 0 0 0)) /\ located_rows ex_data <> [].
Proof.
  split; [vm_compute; reflexivity|]. split; [vm_compute; reflexivity|]. split.
  - constructor; [|constructor]. split; [eapply addr_name; reflexivity|constructor].
  - split; [|vm_compute; discriminate]. split; [|exists std_unit; reflexivity]. intros (c & Hc & E). injection Hc as <-. vm_compute in E. discriminate.
Qed.
(** datetimes are in the order of their fields *)
Theorem C101_order : forall a b, valid_datetime a = true -> valid_datetime b = true -> (qinstant a <= qinstant b <-> not_later a b).
Proof. intros a b Va Vb. rewrite qinstant_le. apply instant_order; auto. Qed.
Print Assumptions C101_order.
Example C101_order_example : qinstant (mkDT 2008 12 31 23 59 59) + 1 == qinstant (mkDT 2009 1 1 0 0 0).
Proof. vm_compute. reflexivity. Qed.
(** so a partial date keeps, of the points at whole seconds, those whose date has its components *)
Theorem C101_period_partial : forall units p a b n u x t, accepted p -> first_second p a -> last_second p b -> units n = Ok u -> valid_datetime t = true -> t_read u x == qinstant t ->
  (inside units n (Dates a b) x <-> has_components p t).
Proof. exact period_inside. Qed.
Print Assumptions C101_period_partial.
Example C101_period_example : accepted leap_day /\ first_second leap_day (mkDT 2008 2 29 0 0 0) /\ last_second leap_day (mkDT 2008 2 29 23 59 59) /\ t_read std_unit (ex_day 2008 2 29) == qinstant (mkDT 2008 2 29 0 0 0).
Proof.
  assert (A : accepted leap_day). { split; [exists [Some 2%Z; Some 29%Z; None; None; None]; split; reflexivity|]. intros [E _]. discriminate. }
  destruct (accepted_range leap_day A) as (lo & hi & E & Vl & Vh & H). vm_compute in E. injection E as <- <-.
  assert (L : not_later (mkDT 2008 2 29 0 0 0) (mkDT 2008 2 29 23 59 59)) by (unfold not_later, fields; cbn; lia).
  split; auto. split; [split; [auto|]|split; [split; [auto|]|vm_compute; reflexivity]].
  - split; [apply H; auto using not_later_refl|]. intros t' V' C'. apply H in C'; tauto.
  - split; [apply H; auto using not_later_refl|]. intros t' V' C'. apply H in C'; tauto.
Qed.
(** limits that are numbers are treated as in the model with numbers alone *)
Theorem C101_numbers : forall units d kws kws', Forall2 same_numbers kws kws' -> subset_dated units d kws = subset d kws'.
Proof. exact numbers_same. Qed.
Print Assumptions C101_numbers.
Example C101_numbers_example : kept (subset_dated ex_units ex_data [(lit "t", Several [Number (ex_day 2008 3 1); Nothing])]) = Ok (Some [Some 200; Some 300; Some 400]) /\
  Forall2 same_numbers [(lit "t", Several [Number (ex_day 2008 3 1); Nothing])] [Limit (lit "t") (Some (ex_day 2008 3 1)) None].
Proof. split; [vm_compute; reflexivity|]. constructor; [|constructor]. apply sn_pair; reflexivity. Qed.
(** what is no limit is refused *)
Theorem C101_no_limit : forall units d n k arg e kws, proper d -> addresses (u_coords d) n k -> no_limit arg e -> subset_dated units d ((n, arg) :: kws) = Raises e.
Proof. exact no_limit_refused. Qed.
Print Assumptions C101_no_limit.
Example C101_no_limit_example : subset_dated ex_units ex_data [(lit "time", Several [Number 1; Number 2; Number 3])] = Raises ValueError /\ no_limit (Several [Number 1; Number 2; Number 3]) ValueError /\ no_limit (One (Date (mkDT 2008 1 1 0 0 0))) TypeError.
Proof. split; [vm_compute; reflexivity|]. split; constructor; try discriminate; intros p; discriminate. Qed.

(** ** Findings *)
(** a limit of dates cannot be open at one end, nor be two partial dates, nor a date and a number *)
Theorem C101_mixed_refused : forall units d n k a b arg u, proper d -> addresses (u_coords d) n k -> arg = Range a b \/ arg = Several [a; b] -> mixed a b -> units (coord_name d k) = Ok u -> located_rows d <> [] ->
  subset_dated units d [(n, arg)] = Raises TypeError.
Proof. exact mixed_refused. Qed.
Print Assumptions C101_mixed_refused.
Example C101_mixed_example : mixed (Date (mkDT 2008 1 1 0 0 0)) Nothing /\ mixed (Partial leap_day) (Partial leap_day) /\ subset_dated ex_units ex_data [(lit "t", Range (Date (mkDT 2008 1 1 0 0 0)) Nothing)] = Raises TypeError.
Proof.
  split; [|split; [|vm_compute; reflexivity]]; split.
  - intros [[H|(x & H)] _]; discriminate. - intros [_ (t & H)]. discriminate. - intros [[H|(x & H)] _]; discriminate. - intros [_ (t & H)]. discriminate.
Qed.
(** a point in the last second of the period, but not at its beginning, is lost *)
Theorem C101_last_second_refuted : kept (subset_dated ex_units ex_data [(lit "t", One (Partial (mkPartial 2008 [None; None; None; None; None])))]) = Ok (Some [Some 100; Some 200]) /\
  qinstant (mkDT 2008 12 31 23 59 59) < t_read std_unit (nth 2 ex_times 0) < qinstant (mkDT 2009 1 1 0 0 0).
Proof. split; [vm_compute; reflexivity|]. split; vm_compute; reflexivity. Qed.
Print Assumptions C101_last_second_refuted.

(** ** Gridded data *)
Theorem C101_gridded_partial : forall units ds kws, gridded_limits units ds kws -> exists keeps, Forall2 (along units kws) ds keeps /\
  subset_gridded units ds kws = Ok (if existsb (fun p => (length p =? 0)%nat) keeps then None else Some (map (fun dp : gdim * list Q => mkGdim (gd_name (fst dp)) (snd dp)) (combine ds keeps))).
Proof. exact subset_gridded_spec. Qed.
Print Assumptions C101_gridded_partial.
Definition ex_dims : list gdim := [mkGdim (lit "time") ex_times; mkGdim (lit "altitude") [0; 500; 1000]].
Example C101_gridded_example :
  subset_gridded ex_units ex_dims [(lit "time", Several [Date (mkDT 2008 3 1 0 0 0); Date (mkDT 2008 12 31 0 0 0)]); (lit "altitude", Range (Number 400) Nothing)]
    = Ok (Some [mkGdim (lit "time") [ex_day 2008 3 1 + (1#2)]; mkGdim (lit "altitude") [500; 1000]]) /\
  gridded_limits ex_units ex_dims [(lit "altitude", Range (Number 400) Nothing)] /\
  subset_gridded ex_units ex_dims [(lit "altitude", Range (Number 2000) Nothing)] = Ok None.
Proof.
  split; [vm_compute; reflexivity|]. split; [|vm_compute; reflexivity].
  split; [repeat constructor; vm_compute; intuition discriminate|]. split; [repeat constructor; intros []|]. split; [intros d [<-|[<-|[]]]; discriminate|].
  intros n a [E|[]]. injection E as <- <-. split; [right; left; reflexivity|]. exists (Numbers (Some 400) None). split; [constructor; reflexivity|]. intros u. vm_compute. discriminate.
Qed.
(** limits that are numbers are refused for the times of gridded data, open ends too *)
Theorem C101_gridded_numbers_refused : forall units ds d a b va vb arg u, NoDup (map gd_name ds) -> In d ds -> gd_points d <> [] -> units (gd_name d) = Ok u -> number_of va a -> number_of vb b -> arg = Range va vb \/ arg = Several [va; vb] ->
  (forall d', In d' ds -> gd_points d' <> []) -> subset_gridded units ds [(gd_name d, arg)] = Raises TypeError.
Proof. exact gridded_numbers_refused. Qed.
Print Assumptions C101_gridded_numbers_refused.
Example C101_gridded_numbers_example : subset_gridded ex_units ex_dims [(lit "time", Range (Number 1) Nothing)] = Raises TypeError /\
  subset_gridded ex_units ex_dims [(lit "time", Range (Date (mkDT 2008 3 1 0 0 0)) Nothing)] = Raises TypeError.
Proof. split; vm_compute; reflexivity. Qed.

(** ** Grids of an aggregation *)
(** with the standard time units the edges lie at the start and every period after it *)
Theorem C101_grid_partial : forall units c g a b s u, spells_grid g a b s -> units (c_name c) = Ok u -> standard_days u ->
  exists r, grid_request units (Some c) g = Ok r /\ t_read u (rq_stop r) == qinstant b /\ forall k : Q, t_read u (rq_start r + k * rq_step r) == qinstant a + k * s.
Proof. exact grid_dates. Qed.
Print Assumptions C101_grid_partial.
Example C101_grid_example : spells_grid (Grid (Date (mkDT 2008 1 1 0 0 0)) (Date (mkDT 2009 1 1 0 0 0)) (Delta 86400)) (mkDT 2008 1 1 0 0 0) (mkDT 2009 1 1 0 0 0) 86400 /\
  grid_request ex_units (Some (ex_coord "time" "T" ex_times)) (GSeveral [Partial leap_day; Delta 3600]) = Ok (mkReq (t_write std_unit (mkDT 2008 2 29 0 0 0)) (t_write std_unit (mkDT 2008 2 29 23 59 59)) (3600 / 86400)).
Proof. split; [constructor|vm_compute; reflexivity]. Qed.
Theorem C101_grid_numbers : forall units c g x y s, (exists vx vy, (g = Grid vx vy (Number s) \/ g = GSeveral [vx; vy; Number s]) /\ number_of vx x /\ number_of vy y) ->
  grid_request units (Some c) g = bind (default_to x (qmin_of (somes (c_points c)))) (fun a => bind (default_to y (qmax_of (somes (c_points c)))) (fun b => Ok (mkReq a b s))).
Proof. exact grid_numbers. Qed.
Print Assumptions C101_grid_numbers.
Example C101_grid_numbers_example : grid_request ex_units (Some (ex_coord "latitude" "Y" [10; 20; 30])) (GSeveral [Nothing; Number 90; Number 5]) = Ok (mkReq 10 90 5) /\
  grid_request ex_units (Some (ex_coord "latitude" "Y" [10; 20; 30])) (GSeveral [Number 0; Number 90; Nothing]) = Raises ValueError /\
  grid_request ex_units None (GSeveral [Number 0; Number 90; Number 1]) = Raises AttributeError /\ grid_request ex_units None (GSeveral [Number 0; Number 90]) = Raises ValueError.
Proof. repeat split; vm_compute; reflexivity. Qed.
(** a period is always counted in days: where the times are in hours, the cells are a twenty-fourth of it *)
Theorem C101_grid_hours_refuted : forall units c g a b s u, spells_grid g a b s -> units (c_name c) = Ok u -> standard_hours u ->
  exists r, grid_request units (Some c) g = Ok r /\ forall k : Q, t_read u (rq_start r + k * rq_step r) == qinstant a + k * (s / 24).
Proof. exact grid_hours. Qed.
Print Assumptions C101_grid_hours_refuted.
Example C101_grid_hours_example : spells_grid (Grid (Date (mkDT 2008 1 1 0 0 0)) (Date (mkDT 2008 1 3 0 0 0)) (Delta 86400)) (mkDT 2008 1 1 0 0 0) (mkDT 2008 1 3 0 0 0) 86400 /\ standard_hours hour_unit /\
  bind (grid_request (fun _ => Ok hour_unit) (Some (ex_coord "time" "T" ex_times)) (Grid (Date (mkDT 2008 1 1 0 0 0)) (Date (mkDT 2008 1 3 0 0 0)) (Delta 86400))) (fun r => Ok (Qeq_bool (rq_step r) 1)) = Ok true.
Proof. split; [constructor|]. split; [apply ex_standard|vm_compute; reflexivity]. Qed.

(** ** What is refused *)
(** a keyword that names no dimension of the gridded data *)
Theorem C101_gridded_unknown : forall units ds n arg kws, ~ In n (map gd_name ds) -> subset_gridded units ds ((n, arg) :: kws) = Raises CoordinateNotFoundError.
Proof. exact gridded_unknown. Qed.
Print Assumptions C101_gridded_unknown.
Example C101_gridded_unknown_example : subset_gridded ex_units [mkGdim (lit "latitude") [10; 20]] [(lit "height", Range (Number 1) (Number 2)); (lit "latitude", Range (Number 10) (Number 20))] = Raises CoordinateNotFoundError.
Proof. vm_compute. reflexivity. Qed.
(** a sequence that is neither start, stop and step nor a partial date and a step, whether the coordinate is there or not; a single value *)
Theorem C101_no_grid : forall units c l, length l <> 3%nat -> (forall p s, l <> [Partial p; s]) -> grid_request units c (GSeveral l) = Raises ValueError.
Proof. exact grid_refused. Qed.
Print Assumptions C101_no_grid.
Theorem C101_single_grid : forall units c v, grid_request units c (GOne v) = Raises TypeError.
Proof. exact grid_single. Qed.
Print Assumptions C101_single_grid.
(** a grid of numbers (or open ends) without a step *)
Theorem C101_no_step : forall units c g a b, g = Grid a b Nothing \/ g = GSeveral [a; b; Nothing] -> plain a -> plain b -> somes (c_points c) <> [] -> grid_request units (Some c) g = Raises ValueError.
Proof. exact grid_no_step. Qed.
Print Assumptions C101_no_step.
Example C101_refused_example : length [Number 0; Number 90] <> 3%nat /\ (forall p s, [Number 0; Number 90] <> [Partial p; s]) /\ plain Nothing /\ plain (Number 3) /\ somes (c_points (ex_coord "latitude" "Y" [10; 20])) <> [].
Proof. repeat split; try discriminate. left; reflexivity. right; eauto. Qed.
