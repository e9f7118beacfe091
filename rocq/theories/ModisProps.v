(** C45 Each element of a multi-slice MODIS L2 variable holds its own slice. *)
From Verif Require Import Base QBase IndexModel IndexSpec InterpModel ModisModel ModisSpec ModisProofs.
From Coq Require Import List Lia.
Import ListNotations.
Open Scope list_scope. Open Scope nat_scope.

(** In full: of a list of n >= 2 elements, whatever was asked for before and in whatever order, element k >= 1 shows the k-th slice of all files, but element 0
    shows the slice 1; a single element shows its slice. *)
Theorem C45_partial : forall lead var, Forall (file lead) var -> var <> [] -> lead <> [] ->
  exists st, create_data_object var = Ok st /\ length (elements st) = cells lead /\
  forall ks, Forall (fun k => k < cells lead) ks -> exists st', access ks st = Ok st' /\ length (elements st') = cells lead /\
  forall k, k < cells lead -> k <> 0 \/ cells lead = 1 -> look k st' = Ok (slice lead k var).
Proof.
  intros lead var F N L. destruct (modis_elements lead var F N L) as (st & E & H & G). exists st. split; auto. split; auto. intros ks K. destruct (G ks K) as (st' & E' & H' & G'). exists st'. split; auto. split; auto. intros k Hk C. rewrite G' by auto.
  destruct C as [C|C]; [destruct k; [congruence|reflexivity]|]. assert (k = 0) as -> by lia. rewrite C. reflexivity.
Qed.
Print Assumptions C45_partial.
(** data of two dimensions: one object, with all values *)
Theorem C45_two_dimensions : forall var, Forall (file []) var -> var <> [] -> exists st, create_data_object var = Ok st /\ length (elements st) = 1 /\ look 0 st = Ok (flat_map s_values var).
Proof. exact modis_two. Qed.
Print Assumptions C45_two_dimensions.
(** The first element never shows its own slice when there are more: it was loaded when the readers stood at the second one. *)
Theorem C45_refuted :
  (forall lead var, Forall (file lead) var -> var <> [] -> lead <> [] -> 2 <= cells lead ->
    exists st, create_data_object var = Ok st /\ forall ks, Forall (fun k => k < cells lead) ks -> exists st', access ks st = Ok st' /\ look 0 st' = Ok (slice lead 1 var)) /\
  (exists lead var, Forall (file lead) var /\ var <> [] /\ lead <> [] /\ 2 <= cells lead /\ slice lead 0 var <> slice lead 1 var).
Proof.
  split.
  - intros lead var F N L C. destruct (modis_elements lead var F N L) as (st & E & _ & G). exists st. split; auto. intros ks K. destruct (G ks K) as (st' & E' & _ & G'). exists st'. split; auto. rewrite G' by lia. destruct (Nat.leb_spec 2 (cells lead)); [reflexivity|lia].
  - exists [2], [mkSds [2; 1; 2] [1; 2; 3; 4]%Z None None]. split; [repeat constructor; exists 1, 2; auto|]. split; [discriminate|]. split; [discriminate|]. split; [cbn; lia|]. discriminate.
Qed.
Print Assumptions C45_refuted.
Definition two_files : list sds := [mkSds [3; 1; 2] [1; 2; 3; 4; 5; 6]%Z None None; mkSds [3; 2; 2] [10; 20; 30; 40; 50; 60; 70; 80; 90; 100; 110; 120]%Z None None].
Example C45_case : Forall (file [3]) two_files /\ slice [3] 2 two_files = [5; 6; 90; 100; 110; 120]%Z /\
  bind (create_data_object two_files) (fun st => bind (access [2; 0] st) (fun st => bind (look 0 st) (fun a => bind (look 1 st) (fun b => bind (look 2 st) (fun c => Ok [a; b; c])))))
  = Ok [[3; 4; 50; 60; 70; 80]; [3; 4; 50; 60; 70; 80]; [5; 6; 90; 100; 110; 120]]%Z.
Proof. split; [constructor; [exists 1, 2; auto|constructor; [exists 2, 2; auto|constructor]]|]. split; reflexivity. Qed.
