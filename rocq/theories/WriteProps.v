(** Properties C44 and C58: saving writes every variable; what was saved is read back. *)
From Verif Require Import Base PyStr QBase UtilModel UtilSpec ReadModel ReadSpec WriteModel WriteSpec WriteProofs.
From Coq Require Import Lqa.
From Coq Require Import String. Import ListNotations.
Open Scope list_scope. Open Scope Q_scope. Notation length := List.length.

(** Whatever the names: the file has one variable of each name, which holds the values of the first object of that name (coordinates first). *)
Theorem C44_first_kept : forall default_fill cs ds l f, named cs ds l -> (forall v, In v cs \/ In v ds -> exact v) -> same_size cs ds -> save_data default_fill cs ds = Ok f ->
  NoDup (map fst (nf_vars f)) /\
  (forall n s, In (n, s) (nf_vars f) -> exists pre v post, l = pre ++ (v, n) :: post /\ ~ In n (map snd pre) /\ holds s v) /\
  (forall v n, In (v, n) l -> exists s, In (n, s) (nf_vars f)).
Proof. exact save_first. Qed.
Print Assumptions C44_first_kept.

(** If the names are distinct every coordinate and every data object is saved, and nothing else. *)
Theorem C44_saved_partial : forall default_fill cs ds l f, named cs ds l -> NoDup (map snd l) -> (forall v, In v cs \/ In v ds -> exact v) -> same_size cs ds -> save_data default_fill cs ds = Ok f ->
  length (nf_vars f) = length l /\ forall v n, In (v, n) l -> exists s, In (n, s) (nf_vars f) /\ holds s v.
Proof. exact save_distinct. Qed.
Print Assumptions C44_saved_partial.

(** Saving succeeds if everything has a name, a supported type and the same number of elements. *)
Theorem C44_succeeds : forall default_fill cs ds l, named cs ds l -> cs <> [] -> ds <> [] -> (forall v, In v cs \/ In v ds -> array_ok (w_data v) /\ known_type v) -> same_size cs ds ->
  exists f, save_data default_fill cs ds = Ok f.
Proof. exact save_succeeds. Qed.
Print Assumptions C44_succeeds.

(** Data or coordinates of another size are not saved (a single value excepted: it is repeated). *)
Theorem C44_wrong_size : forall default_fill cs ds l c v, named cs ds l -> NoDup (map snd l) -> hd_error cs = Some c -> In v cs \/ In v ds -> array_ok (w_data v) ->
  length (an_data (w_data v)) <> length (an_data (w_data c)) -> length (an_data (w_data v)) <> 1%nat -> exists e, save_data default_fill cs ds = Raises e.
Proof. exact save_wrong_size. Qed.
Print Assumptions C44_wrong_size.

Definition plain_attrs : attrs := mkAttrs None None None None None.
Definition var (name std : string) (d : varr) : wvar := mkWVar (Some (lit name)) (Some (lit std)) (lit "float64") None plain_attrs d.
Definition lat : wvar := var "lat" "latitude" (Plain [Some 1; Some 2]).
Definition lon : wvar := var "lon" "longitude" (Plain [Some 3; Some (1 # 2)]).
Definition aot : wvar := var "aot" "" (Plain [Some (1 # 3); None]).
Lemma plain_exact : forall name std d, array_ok d -> exact (var name std d).
Proof. intros name std d OK. split; [exact OK|]. split; [cbn; discriminate|]. left. right. reflexivity. Qed.

(** In general it is false: a data variable whose name is a coordinate's standard name is not saved, without an error. *)
Theorem C44_refuted : ~ (forall default_fill cs ds l f, named cs ds l -> (forall v, In v cs \/ In v ds -> exact v) -> same_size cs ds -> save_data default_fill cs ds = Ok f ->
  forall v n, In (v, n) l -> exists s, In (n, s) (nf_vars f) /\ holds s v).
Proof.
  intros H. set (d := var "latitude" "" (Plain [Some 7; Some 8])).
  destruct (H (fun _ => 0) [lat] [d] [(lat, lit "latitude"); (d, lit "latitude")] (mkFile 2 [(lit "latitude", mkStored DFloat [Some ((1 - 0) / 1); Some ((2 - 0) / 1)] 0 plain_attrs)])) with (v := d) (n := lit "latitude") as (s & I & HO).
  - repeat constructor; discriminate.
  - intros v [[<-|[]]|[<-|[]]]; apply plain_exact; exact Logic.I.
  - intros c v [= <-] [[<-|[]]|[<-|[]]]; reflexivity.
  - vm_compute. reflexivity.
  - right. left. reflexivity.
  - destruct I as [[= <-]|[]]. destruct HO as (_ & _ & _ & HO). destruct (HO 0%nat (Some 7) false) as (y & Y & _ & V); [split; reflexivity|]. cbn in Y. injection Y as <-. specialize (V eq_refl). vm_compute in V. discriminate V.
Qed.
Print Assumptions C44_refuted.

(** What was saved under distinct names reads back, coordinates and data alike: if the values can be stored without loss, none of them is taken for invalid because of the
    limits among the attributes, missing ones are marked by these limits, and exactly the coordinates have names of axes. *)
Theorem C58_round_trip_partial : forall default_fill cs ds l f, named cs ds l -> NoDup (map snd l) -> (forall v, In v cs \/ In v ds -> good default_fill v) -> same_size cs ds -> save_data default_fill cs ds = Ok f ->
  (forall c n, In c cs -> coord_name c n -> In n known_axes) -> (forall d n, In d ds -> data_name d n -> ~ In n known_axes) ->
  forall d n, In d ds -> data_name d n -> exists coords out, cis_read f n = Ok (coords, out) /\ Forall2 (fun c p => coord_name c (fst p) /\ same_array (w_data c) (snd p)) cs coords /\ same_array (w_data d) out.
Proof. exact round_trip. Qed.
Print Assumptions C58_round_trip_partial.

(** In general it is false: missing values come back as numbers; valid_range, which is kept from a file whose values were scaled, makes good values missing;
    a coordinate that is not called after an axis is no coordinate any more. *)
Definition hole : wvar := var "aot" "" (Masked [Some 1; Some 5] (Some [false; true])).
Definition small : wvar := mkWVar (Some (lit "tau")) None (lit "float64") None (mkAttrs None None (Some [1; 100]) None None) (Plain [Some (1 # 2); Some 2]).
Definition level : wvar := var "level" "" (Plain [Some 1; Some 2]).
Theorem C58_refuted :
  ~ (forall default_fill c d f n coords out, exact c -> exact d -> within d -> same_size [c] [d] -> save_data default_fill [c] [d] = Ok f -> data_name d n -> cis_read f n = Ok (coords, out) -> same_array (w_data d) out) /\
  ~ (forall default_fill c d f n coords out, exact c -> exact d -> none_missing d -> same_size [c] [d] -> save_data default_fill [c] [d] = Ok f -> data_name d n -> cis_read f n = Ok (coords, out) -> same_array (w_data d) out) /\
  ~ (forall default_fill cs d f n coords out, (forall v, In v cs \/ v = d -> exact v /\ within v /\ none_missing v) -> same_size cs [d] -> save_data default_fill cs [d] = Ok f -> data_name d n -> cis_read f n = Ok (coords, out) ->
       length coords = length cs).
Proof.
  split; [|split].
  - intros H. destruct (save_data (fun _ => 9) [lat] [hole]) as [f|] eqn:S; [|discriminate S]. destruct (cis_read f (lit "aot")) as [[coords out]|] eqn:R; [|vm_compute in S; injection S as <-; discriminate R].
    assert (K := H (fun _ => 9) lat hole f (lit "aot") coords out). assert (SA : same_array (w_data hole) out).
    { apply K; auto; [apply plain_exact; exact Logic.I|apply plain_exact; reflexivity| | |left; split; [reflexivity|discriminate]].
      - split; [intros t q _ [E|E]; discriminate E|]. split; [intros l E; discriminate E|]. intros x _ [(a & E & _)|[(a & E & _)|(a & E & _)]]; discriminate E.
      - intros c v [= <-] [[<-|[]]|[<-|[]]]; reflexivity. }
    vm_compute in S. injection S as <-. vm_compute in R. injection R as _ <-. destruct SA as [_ SA]. destruct (SA 1%nat (Some 5) true) as (y & [_ Y] & _); [split; reflexivity|]. discriminate Y.
  - intros H. destruct (save_data (fun _ => 9) [lat] [small]) as [f|] eqn:S; [|discriminate S]. destruct (cis_read f (lit "tau")) as [[coords out]|] eqn:R; [|vm_compute in S; injection S as <-; discriminate R].
    assert (SA : same_array (w_data small) out).
    { apply (H (fun _ => 9) lat small f (lit "tau") coords out); auto; [apply plain_exact; exact Logic.I| | | |left; split; [reflexivity|discriminate]].
      - split; [exact Logic.I|]. split; [cbn; discriminate|]. left. right. reflexivity.
      - intros i x m [_ E]. cbn in E. destruct i as [|[|i]]; cbn in E; [congruence|congruence|destruct i; discriminate].
      - intros c v [= <-] [[<-|[]]|[<-|[]]]; reflexivity. }
    vm_compute in S. injection S as <-. vm_compute in R. injection R as _ <-. destruct SA as [_ SA]. destruct (SA 0%nat (Some (1 # 2)) false) as (y & [_ Y] & _); [split; reflexivity|]. discriminate Y.
  - intros H. destruct (save_data (fun _ => 9) [lat; level] [aot]) as [f|] eqn:S; [|discriminate S]. destruct (cis_read f (lit "aot")) as [[coords out]|] eqn:R; [|vm_compute in S; injection S as <-; discriminate R].
    assert (L : length coords = 2%nat).
    { apply (H (fun _ => 9) [lat; level] aot f (lit "aot") coords out); auto; [| |left; split; [reflexivity|discriminate]].
      - intros v I. assert (E : exists name std d, v = var name std (Plain d)) by (destruct I as [[<-|[<-|[]]]| ->]; do 3 eexists; reflexivity). destruct E as (name & std & d & ->). split; [apply plain_exact; exact Logic.I|]. split.
        + split; [intros t q _ [E|E]; discriminate E|]. split; [intros l E; discriminate E|]. intros x _ [(a & E & _)|[(a & E & _)|(a & E & _)]]; discriminate E.
        + intros i x m [_ E]. cbn in E. symmetry. apply nth_error_In, repeat_spec in E. congruence.
      - intros c v [= <-] [[<-|[<-|[]]]|[<-|[]]]; reflexivity. }
    vm_compute in S. injection S as <-. vm_compute in R. injection R as <- _. discriminate L.
Qed.
Print Assumptions C58_refuted.

(** two coordinates and two variables, one of integers with missing values marked by valid_min *)
Definition flag : wvar := mkWVar (Some (lit "flag")) None (lit "int16") (Some (-(1))) (mkAttrs None (Some (Some 0)) None None None) (Masked [Some 3; Some 4] (Some [false; true])).
Definition packed : wvar := mkWVar (Some (lit "packed")) None (lit "float32") None (mkAttrs None None None (Some (mkNum 5 true)) (Some (mkNum (1 # 10) true))) (Plain [Some (1 # 3); Some 7]).
Example C44_case : match save_data (fun _ => 9) [lon; lat] [aot; flag; packed] with
  | Ok f => map fst (nf_vars f) = map lit ["longitude"; "latitude"; "aot"; "flag"; "packed"]%string /\ option_map s_raw (option_map snd (nth_error (nf_vars f) 3)) = Some [Some 3; Some (-(1))]
  | Raises _ => False end.
Proof. vm_compute. split; reflexivity. Qed.
Example C58_case : named [lon; lat] [aot; flag; packed] [(lon, lit "longitude"); (lat, lit "latitude"); (aot, lit "aot"); (flag, lit "flag"); (packed, lit "packed")] /\
  (forall v, In v [lon; lat] \/ In v [aot; flag; packed] -> good (fun _ => 9) v).
Proof.
  split; [repeat constructor; discriminate|]. intros v I.
  assert (G : forall name std d, good (fun _ => 9) (var name std (Plain d))).
  { intros name std d. split; [apply plain_exact; exact Logic.I|]. split.
    - split; [intros t q _ [E|E]; discriminate E|]. split; [intros l E; discriminate E|]. intros x _ [(a & E & _)|[(a & E & _)|(a & E & _)]]; discriminate E.
    - left. intros i x m [_ E]. cbn in E. apply nth_error_In, repeat_spec in E. congruence. }
  destruct I as [[<-|[<-|[]]]|[<-|[<-|[<-|[]]]]]; try apply G.
  - split; [|split].
    + split; [reflexivity|]. split; [cbn; discriminate|]. right. split; [reflexivity|]. split; [reflexivity|]. intros x [[= <-]|[[= <-]|[]]]; [exists 3%Z|exists 4%Z]; reflexivity.
    + split; [|split; [intros l E; discriminate E|]].
      * intros t q T [E|E]; [discriminate E|]. injection E as <-. assert (TT : t = DInt true 16) by (vm_compute in T; repeat (destruct T as [T|T]; [try discriminate T; injection T as <-; reflexivity|]); destruct T). subst t. exists 0%Z. split; [reflexivity|]. vm_compute. split; congruence.
      * intros x [[= <-]|[[= <-]|[]]] [(a & E & _)|[(a & [= <-] & b & [= <-] & q & [= <-] & L)|(a & E & _)]]; try discriminate E; vm_compute in L; discriminate L.
    + right. intros t _. right. left. exists (Some 0). split; [reflexivity|]. exists 0. split; [reflexivity|]. exists (-(1)). split; [reflexivity|]. reflexivity.
  - split; [|split].
    + split; [exact Logic.I|]. split; [cbn; discriminate|]. left. left. reflexivity.
    + split; [intros t q _ [E|E]; discriminate E|]. split; [intros l E; discriminate E|]. intros x _ [(a & E & _)|[(a & E & _)|(a & E & _)]]; discriminate E.
    + left. intros i x m [_ E]. apply nth_error_In in E. cbn in E. destruct E as [<-|[<-|[]]]; reflexivity.
Qed.
