(** C70: the theorems. *)
From Coq Require Import String.
From Verif Require Import Base PyStr QBase LonModel LonSpec UngrModel InterpModel InterpSpec GUModel GUSpec GGModel GGSpec GG4Proofs.
From Coq Require Import List Lia QArith Permutation.
Import ListNotations.
Open Scope string_scope. Open Scope list_scope. Open Scope nat_scope. Notation length := List.length.

(** Gridded variables on the grid of a sample: the dimensions, their order, every value and the mask, whatever the interpolation scheme is; the data are left as they were but for the turn
    their longitudes are given in (the values are found on the data as they are left).
    Partial: missing for variables with their dimensions in different orders or of different sizes, for scalar or two-dimensional longitudes of the data, and for samples where other coordinates make up for a missing dimension. *)
Theorem C70_partial : forall scheme how m mdfms s g0 gs, way how m -> good_sample s -> (forall g, In g (g0 :: gs) -> good_data g /\ alike g g0) -> scalars_only s g0 ->
  (mdfms = true -> sa_mask s <> None -> ~ made_up_for s g0) ->
  exists rs gs', sampled_on_grid scheme how false mdfms s (g0 :: gs) = Ok (rs, gs') /\ Forall2 same_variable (g0 :: gs) gs' /\ Forall2 (collocated (scheme m) mdfms s) gs' rs.
Proof. exact sampled_grid_ok. Qed.
Print Assumptions C70_partial.
(** a kernel or another method is refused *)
Theorem C70_refused : forall scheme how k mdfms s gs, k = true \/ (forall m, ~ way how m) -> sampled_on_grid scheme how k mdfms s gs = Raises ValueError.
Proof. exact sampled_grid_refused. Qed.
Print Assumptions C70_refused.

(** a case: the sample has longitude and latitude, in this order, and a cell without a value; the data time, latitude and longitude, with longitudes 0..360 *)
Definition a_dim (name : string) (p : list Q) : gdim := mkGDim (Some (lit name)) [] (InterpModel.mkDim p false).
Definition s1 : sample := mkSample [a_dim "longitude" [-(90); 0; 90]%Q; a_dim "latitude" [10; 20]%Q] [(a_dim "height" [2]%Q, true)] (Some (fun e => match e with [0; 1] => true | _ => false end)).
Definition g1 : gdata := mkG [a_dim "time" [0; 1]%Q; a_dim "latitude" [0; 10; 20]%Q; a_dim "longitude" [0; 90; 180; 270]%Q] []
  (fun e => match e with [t; i; j] => Some (inject_Z (Z.of_nat (100 * t + 10 * i + j))) | _ => None end).
(** interpolation at grid points only *)
Definition at_points (m : method) (g : gdata) (ts : list target) : option Q :=
  let ks := zip_with (fun d t => match t with At x => index_where (fun y => Qeq_bool x y) (points_of d) | Index k => Some k end) (g_dims g) ts in
  if forallb (fun o : option nat => match o with Some _ => true | None => false end) ks then g_values g (map (fun o : option nat => match o with Some k => k | None => 0 end) ks) else None.
Definition value_of (r : res (list gdata * list gdata)) (i : nat) (e : list nat) : option Q := match r with Ok (rs, _) => match nth_error rs i with Some g => g_values g e | None => None end | Raises _ => None end.
Example C70_hypotheses : way [] Lin /\ good_sample s1 /\ (forall g, In g [g1; g1] -> good_data g /\ alike g g1) /\ scalars_only s1 g1 /\ (true = true -> sa_mask s1 <> None -> ~ made_up_for s1 g1).
Proof.
  assert (G : good_data g1).
  { split; [repeat constructor; cbn; intuition discriminate|]. split; [intros []|]. intros d [<-|[<-|[<-|[]]]] E; try discriminate E. split; [|discriminate]. unfold increasing. cbn. repeat constructor. }
  split; [left; auto|]. split; [split; [repeat constructor; cbn; intuition discriminate|intros d [<-|[<-|[<-|[]]]] E; discriminate]|]. split; [intros g [<-|[<-|[]]]; (split; [exact G|reflexivity])|].
  split. { intros d b [[= <- <-]|[]] _. auto. }
  intros _ _ [(d & Hd & HN) _]. apply HN. destruct Hd as [<-|[<-|[]]]; [eexists; split; [right; right; left; reflexivity|reflexivity]|eexists; split; [right; left; reflexivity|reflexivity]].
Qed.
Example C70_case : let r := sampled_on_grid at_points (lit "nn") false true s1 [g1; g1] in
  map (value_of r 1) [[0; 0; 0]; [0; 0; 1]; [0; 1; 0]; [0; 1; 1]; [1; 0; 0]; [1; 1; 1]; [2; 1; 1]] = [Some 13; Some 113; None; None; Some 10; Some 120; Some 121]%Q.
Proof. vm_compute. reflexivity. Qed.

(** Without the exceptions it does not hold, for any interpolation scheme. *)
Definition plain (n : nat) (dims : list gdim) : gdata := mkG dims [] (fun e => Some (inject_Z (Z.of_nat (nth 0 e 0 + n)))).
Definition lat2 := a_dim "latitude" [0; 1]%Q.
Definition lon2 := a_dim "longitude" [0; 1]%Q.
(** two variables with the same dimensions in different orders: the second result has them in the wrong order *)
Definition s_square : sample := mkSample [lat2; lon2] [] None.
Definition g_lat_lon := plain 0 [lat2; lon2].
Definition g_lon_lat := plain 1 [lon2; lat2].
(** the sample over latitude and longitude at one time, with missing values; the data over time and latitude *)
Definition s_time : sample := mkSample [lat2; lon2] [(a_dim "time" [0]%Q, true)] (Some (fun e => match e with [0; 0] => true | _ => false end)).
Definition g_time := plain 0 [a_dim "time" [0; 1; 2]%Q; lat2].
(** data at a single longitude *)
Definition g_column : gdata := mkG [lat2] [Some (lit "longitude")] (fun _ => Some 1%Q).
Lemma good_plain n dims : different_names dims -> (forall d, In d dims -> gd_std d = Some (lit "longitude") -> increasing (points_of d) /\ points_of d <> []) -> good_data (plain n dims).
Proof. intros H1 H2. split; [exact H1|]. split; [intros []|]. exact H2. Qed.
Ltac names_tac := repeat constructor; cbn; intuition discriminate.
Lemma lon2_good d : d = lon2 -> increasing (points_of d) /\ points_of d <> [].
Proof. intros ->. split; [unfold increasing; cbn; repeat constructor|discriminate]. Qed.
Theorem C70_refuted :
  (good_sample s_square /\ (forall g, In g [g_lat_lon; g_lon_lat] -> good_data g /\ scalars_only s_square g /\ Permutation (map (fun d => (gd_name d, length (points_of d))) (g_dims g)) (map (fun d => (gd_name d, length (points_of d))) (g_dims g_lat_lon))) /\
   forall scheme, exists rs gs', sampled_on_grid scheme [] false true s_square [g_lat_lon; g_lon_lat] = Ok (rs, gs') /\ ~ Forall2 (collocated (scheme Lin) true s_square) gs' rs) /\
  (good_sample s_time /\ good_data g_time /\ scalars_only s_time g_time /\ forall scheme, sampled_on_grid scheme [] false true s_time [g_time] = Raises ValueError) /\
  (good_sample s_square /\ different_names (g_dims g_column) /\ scalars_only s_square g_column /\ forall scheme, sampled_on_grid scheme [] false true s_square [g_column] = Raises ValueError).
Proof.
  assert (GS : good_sample s_square) by (split; [names_tac|intros d [<-|[<-|[]]] E; discriminate]).
  split; [|split].
  - split; auto. split.
    { intros g [<-|[<-|[]]]; (split; [apply good_plain; [names_tac|intros d [<-|[<-|[]]] E; try discriminate E; apply lon2_good; reflexivity]|split; [intros d b []|]]); [reflexivity|]. apply perm_swap. }
    intros scheme. do 2 eexists. split; [vm_compute; reflexivity|]. intros F. inversion F as [|? ? ? ? _ F2]; subst. inversion F2 as [|? ? ? ? (dims & (own & rest & S1 & S2 & ED) & EL & _) _]; subst.
    cbn in EL. apply (f_equal (map fst)) in EL. inversion S1 as [|? ? ? P1 S3|? ? ? P1 S3]; subst; [|apply P1; eexists; split; [right; left; reflexivity|reflexivity]]. cbn in EL. discriminate EL.
  - split; [split; [names_tac|intros d [<-|[<-|[<-|[]]]] E; discriminate]|]. split; [apply good_plain; [names_tac|intros d [<-|[<-|[]]] E; discriminate]|]. split; [intros d b [[= <- <-]|[]] _; auto|]. reflexivity.
  - split; auto. split; [names_tac|]. split; [intros d b []|]. reflexivity.
Qed.
Print Assumptions C70_refuted.
