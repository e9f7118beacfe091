(** C86: HadGEM files, as NetCDF (CONVSH) and as pp. *)
From Coq Require Import String.
From Verif Require Import Base PyStr QBase NcgModel NcgSpec NcgProofs Ncg2Proofs HadModel HadSpec HadProofs Had2Proofs.
From Coq Require Import List Lia.
Import ListNotations.
Open Scope string_scope. Open Scope list_scope. Open Scope nat_scope. Notation length := List.length.

(** CONVSH.  From one file the cubes as they are; from several, cubes without history and without dimensions of length one, in which every cell keeps its value and its coordinates.  Of the one variable of that name:
    hybrid heights in metres, the time (called time, or t) in standard time, everything else as it was; added to it, the heights and pressures in the files.  No such variable: InvalidVariableError. *)
Theorem C86_convsh_partial : forall together std_time unit_to several raw, Forall well_shaped raw -> (several = true -> Forall (fun c => has_attribute c "history") raw) ->
  exists cs, (several = true -> Forall2 stripped raw cs) /\ (several = false -> cs = raw) /\
  (forall v, no_cube together cs (has_name v) -> convsh together std_time unit_to several raw (Some v) = Raises InvalidVariableError) /\
  forall v c, one_cube together cs (has_name v) c -> clear std_time unit_to c -> plain_cube c -> no_overhang together raw c ->
  exists r, convsh together std_time unit_to several raw (Some v) = Ok r /\ same_variable c r /\ Forall2 (dim_read std_time unit_to) (q_dims c) (q_dims r) /\
  exists x h p, q_aux r = x ++ h ++ p /\ Forall2 (aux_read unit_to) (q_aux c) x /\ heights together raw c h /\ pressures together raw c p.
Proof. exact convsh_read. Qed.
Print Assumptions C86_convsh_partial.
(** A hybrid height that cannot be converted to metres is an error, not a height in other units. *)
Theorem C86_height_units : forall together std_time unit_to several raw, Forall well_shaped raw -> (several = true -> Forall (fun c => has_attribute c "history") raw) ->
  exists cs, (several = true -> Forall2 stripped raw cs) /\ (several = false -> cs = raw) /\
  forall v c x, one_cube together cs (has_name v) c -> at_most_one height (coordinates c) -> In x (coordinates c) -> height x -> unit_to (units_of x) (lit "m") = None -> convsh together std_time unit_to several raw (Some v) = Raises ValueError.
Proof. exact convsh_units. Qed.
Print Assumptions C86_height_units.
(** The names offered are those of all cubes. *)
Theorem C86_names : forall loaded n, In n (convsh_names loaded) <-> exists c, In c loaded /\ name_is c n.
Proof. exact names_ok. Qed.
Print Assumptions C86_names.
(** pp.  The variable gets the name of the cube, if NetCDF allows it; from one file, else the name with underscores for blanks. *)
Theorem C86_pp_partial : forall together std_time several raw, exists cs, Forall2 (pp_cube several) raw cs /\
  (forall v, no_cube together cs (has_name v) -> pp together std_time several raw (Some v) = Raises InvalidVariableError) /\
  forall v c, one_cube together cs (has_name v) c -> plain_cube c -> no_overhang together raw c -> convertible std_time c -> (forall a, one_time_aux c a -> x_dims a = []) ->
  exists r, pp together std_time several raw (Some v) = Ok r /\ same_variable c r /\ times_read std_time c r /\ exists h p, q_aux r = q_aux c ++ h ++ p /\ heights together raw c h /\ pressures together raw c p.
Proof. exact pp_read. Qed.
Print Assumptions C86_pp_partial.
(** Refuted: several CONVSH files cannot be read at all if any cube in them, not only those asked for, has no history. *)
Theorem C86_history_refuted : forall together std_time unit_to raw v c, In c raw -> ~ has_attribute c "history" -> convsh together std_time unit_to true raw v = Raises KeyError.
Proof. exact convsh_no_history. Qed.
Print Assumptions C86_history_refuted.

(** *** examples *)
Definition same_atts (l : list gcube) : bool := match l with [] => true | c :: l => forallb (fun d => if list_eq_dec (fun x y : str * str => ltac:(decide equality; apply str_eq_dec)) (q_atts c) (q_atts d) then true else false) l end.
(** as iris does: cubes with other attributes are not merged.  Two cubes with a scalar t become one cube over t *)
Definition t_value (c : gcube) : option Q := match filter (fun a => is (x_long a) (lit "t")) (q_aux c) with a :: _ => x_at a [] | [] => None end.
Definition two (l : list gcube) : option gcube :=
  match l with
  | [a; b] => if same_atts l then match t_value a, t_value b with
      | Some x, Some y => Some (mkGcube (q_var a) (q_std a) (q_long a) (q_units a) (2 :: q_shape a) (Some (mkDimc None (Some (lit "t")) (Some (lit "t")) (lit "hours since 1600-01-01") [x; y]) :: q_dims a) (fun i => match i with 0 :: i => q_at a i | 1 :: i => q_at b i | _ => None end) [] (q_atts a))
      | _, _ => None end else None
  | _ => None
  end.
Definition hours (u : str) (x : Q) : option Q := if str_eqb u (lit "hours since 1600-01-01") then Some (x / 24)%Q else None.
Definition metres (u v : str) : option (Q -> Q) := if str_eqb u (lit "km") && str_eqb v (lit "m") then Some (fun x => x * 1000)%Q else None.
Definition t_at (x : Q) : dimc := mkDimc None (Some (lit "t")) (Some (lit "t")) (lit "hours since 1600-01-01") [x].
Definition hyb : dimc := mkDimc None (Some (lit "Hybrid height")) (Some (lit "hybrid_ht")) (lit "km") [1; 5]%Q.
Definition theta (h : string) (t : Q) (a b : Q) : gcube := mkGcube (Some (lit "theta")) None (Some (lit "THETA")) (lit "K") [1; 2] [Some (t_at t); Some hyb] (fun i => match i with [0; 0] => Some a | [0; 1] => Some b | _ => None end) [] [(lit "history", lit h); (lit "source", lit "um")].
Definition p_of (h : string) (t : Q) (a b : Q) : gcube := mkGcube (Some (lit "p")) (Some (lit "air_pressure")) None (lit "Pa") [1; 2] [Some (t_at t); Some hyb] (fun i => match i with [0; 0] => Some a | [0; 1] => Some b | _ => None end) [] [(lit "history", lit h); (lit "source", lit "um")].
Definition files2 : list gcube := [theta "one" 24 280 270; theta "two" 48 281 271]%Q.
Example C86_ex_hyps : Forall well_shaped files2 /\ Forall (fun c => has_attribute c "history") files2.
Proof. split; (constructor; [|constructor; [|constructor]]); try (split; [reflexivity|constructor]); eexists; left; reflexivity. Qed.
Definition merged : gcube := match two (map squeeze (map (fun c => mkGcube (q_var c) (q_std c) (q_long c) (q_units c) (q_shape c) (q_dims c) (q_at c) (q_aux c) [(lit "source", lit "um")]) files2)) with Some c => c | None => theta "" 0 0 0 end.
Example C86_ex_clear : clear hours metres merged /\ plain_cube merged /\ no_overhang two files2 merged /\ q_at merged [1; 0] = Some 281%Q.
Proof.
  assert (C : coordinates merged = [Dim (mkDimc None (Some (lit "t")) (Some (lit "t")) (lit "hours since 1600-01-01") [24; 48]%Q); Dim hyb]) by (vm_compute; reflexivity).
  assert (NT : ~ timely (Dim hyb)) by (intros [E|E]; vm_compute in E; discriminate E). assert (NH : ~ height (Dim (mkDimc None (Some (lit "t")) (Some (lit "t")) (lit "hours since 1600-01-01") [24; 48]%Q))) by (intros H; apply height_iff in H; vm_compute in H; discriminate H).
  assert (TW : forall (P : coordinate -> Prop) x y, ~ P x \/ ~ P y -> at_most_one P [x; y]). { intros P x y D pre u mid v post E. destruct pre as [|a [|b [|c pre]]]; cbn in E; [injection E as <- E; destruct mid as [|d mid]; cbn in E; [injection E as <- _; tauto|injection E as _ E; destruct mid; discriminate E]|injection E as _ _ E; destruct mid; discriminate E|discriminate E|discriminate E]. }
  split; [|split; [|split]].
  - unfold clear. rewrite C. split; [apply TW; auto|]. split; [apply TW; auto|]. split; [intros x [<-|[<-|[]]]; tauto|]. split; [intros x [<-|[<-|[]]] H; [contradiction|eexists; vm_compute; reflexivity]|]. split.
    + intros d [E|[E|[]]] T; injection E as <-; [|contradiction]. intros x _. eexists. vm_compute. reflexivity.
    + intros a [E|[E|[]]]; discriminate E.
  - split; [intros a []|]. intros k [E|[E|[]]]; injection E as <-; split; intros K; vm_compute in K; discriminate K.
  - intros n g Hn S1. apply source_iff in S1. exfalso. destruct Hn as [<-|[<-|[<-|[]]]]; vm_compute in S1; discriminate S1.
  - vm_compute. reflexivity.
Qed.
Example C86_ex_read : exists r t h, convsh two hours metres true files2 (Some (lit "THETA")) = Ok r /\ q_dims r = [Some t; Some h] /\ k_std t = Some (lit "time") /\ k_points t = [24 / 24; 48 / 24]%Q /\ k_units h = lit "m" /\ k_points h = [1 * 1000; 5 * 1000]%Q /\ q_at r [1; 1] = Some 271%Q.
Proof. do 3 eexists. split; [vm_compute; reflexivity|]. split; [reflexivity|]. repeat split; vm_compute; reflexivity. Qed.
Definition dust : gcube := mkGcube None None (Some (lit "dust optical depth")) (lit "1") [2] [Some hyb] (fun i => match i with [j] => nth_error [1; 2]%Q j | _ => None end) [] [].
Example C86_ex_pp : exists r, pp two hours false [dust] (Some (lit "dust_optical_depth")) = Ok r /\ q_var r = Some (lit "dust_optical_depth") /\ q_at r [1] = Some 2%Q.
Proof. eexists. split; [vm_compute; reflexivity|]. split; reflexivity. Qed.
Example C86_ex_pp_cube : exists r, pp_cube false dust r /\ renamed dust r (Some (lit "dust_optical_depth")).
Proof.
  eexists. split; [|reflexivity]. eapply (with_underscores false dust _ (lit "dust optical depth") (lit "dust_optical_depth")); [reflexivity|apply name_is_iff; vm_compute; reflexivity|intros W; apply writable_iff in W; vm_compute in W; discriminate W| |apply writable_iff; vm_compute; reflexivity|reflexivity].
  apply (blanks_ok (lit "dust optical depth")).
Qed.
Example C86_ex_missing : In (theta "x" 24 1 2)%Q [theta "x" 24 1 2; dust]%Q /\ ~ has_attribute dust "history" /\ convsh two hours metres true [theta "x" 24 1 2; dust]%Q (Some (lit "theta")) = Raises KeyError.
Proof. split; [left; reflexivity|]. split; [intros (v & [])|vm_compute; reflexivity]. Qed.

(** Refuted: the same name is found in one pp file, but not in several, even if they are the same. *)
Theorem C86_pp_names_refuted : exists c r n, pp (fun l => match l with c :: _ => Some c | [] => None end) hours false [c] (Some n) = Ok r /\ q_var r = Some n /\ pp (fun l => match l with c :: _ => Some c | [] => None end) hours true [c; c] (Some n) = Raises InvalidVariableError.
Proof. exists dust. eexists. exists (lit "dust_optical_depth"). split; [vm_compute; reflexivity|]. split; [reflexivity|vm_compute; reflexivity]. Qed.
Print Assumptions C86_pp_names_refuted.
(** Refuted: another variable whose name has blanks can take the name of a variable, which can then not be read. *)
Definition dust' : gcube := mkGcube (Some (lit "dust_optical_depth")) None None (lit "1") [2] [Some hyb] (fun i => Some 7%Q) [] [].
Theorem C86_pp_clash_refuted : exists a b r, ~ has_name (lit "dust_optical_depth") b /\ has_name (lit "dust_optical_depth") a /\ pp two hours false [a] (Some (lit "dust_optical_depth")) = Ok r /\ pp two hours false [a; b] (Some (lit "dust_optical_depth")) = Raises InvalidVariableError.
Proof. exists dust', dust. eexists. split; [intros [E|[E|E]]; vm_compute in E; discriminate E|]. split; [left; reflexivity|]. split; vm_compute; reflexivity. Qed.
Print Assumptions C86_pp_clash_refuted.
(** Refuted: the pressures are loaded with the history, so from several CONVSH files with different histories they are missing, though each file alone gives them. *)
Definition with_p : list gcube := [theta "one" 24 280 270; p_of "one" 24 1000 500; theta "two" 48 281 271; p_of "two" 48 1001 501]%Q.
Theorem C86_pressure_refuted : exists one other r1 r2 r a, convsh two hours metres false one (Some (lit "theta")) = Ok r1 /\ convsh two hours metres false other (Some (lit "theta")) = Ok r2 /\ q_aux r1 <> [] /\ q_aux r2 <> [] /\ In a (q_aux r1) /\ x_std a = Some (lit "air_pressure") /\
  convsh two hours metres true (one ++ other) (Some (lit "theta")) = Ok r /\ q_aux r = [].
Proof.
  exists (firstn 2 with_p), (skipn 2 with_p). do 4 eexists. split; [vm_compute; reflexivity|]. split; [vm_compute; reflexivity|]. split; [discriminate|]. split; [discriminate|]. split; [left; reflexivity|]. split; [reflexivity|]. split; [vm_compute; reflexivity|reflexivity].
Qed.
Print Assumptions C86_pressure_refuted.
(** Refuted: a time t beside a coordinate time is not converted. *)
Definition both : gcube := mkGcube (Some (lit "theta")) None None (lit "K") [1] [Some (t_at 24)] (fun _ => Some 1%Q) [mkAux (Some (lit "time")) None (Some (lit "forecast")) (lit "hours since 1600-01-01") [] [] (fun _ => Some 48%Q)] [].
Theorem C86_time_refuted : exists c r k, convsh two hours metres false [c] (Some (lit "theta")) = Ok r /\ q_dims r = [Some k] /\ k_std k = Some (lit "time") /\ k_units k = lit "hours since 1600-01-01" /\ k_points k = [24]%Q.
Proof. exists both. do 2 eexists. split; [vm_compute; reflexivity|]. split; [reflexivity|]. repeat split; reflexivity. Qed.
Print Assumptions C86_time_refuted.
