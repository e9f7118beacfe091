(** C84: EarthCARE files. *)
From Coq Require Import String.
From Verif Require Import Base PyStr QBase IndexSpec UngrModel UngrSpec AeroModel AeroProofs EcModel EcSpec EcProofs.
From Coq Require Import List Ascii.
Import ListNotations.
Open Scope string_scope. Open Scope list_scope. Open Scope nat_scope. Notation length := List.length.

(** a granule with two profiles of two levels: classes, an extra dimension, for each *)
Definition ex_file : efile :=
  [(lit "ScienceData/longitude", mkE [lit "along_track"] [2] [Some 10%Q; Some 11%Q]);
   (lit "ScienceData/latitude", mkE [lit "along_track"] [2] [Some 50%Q; None]);
   (lit "ScienceData/time", mkE [lit "along_track"] [2] [Some 0%Q; Some 86400%Q]);
   (lit "ScienceData/height", mkE [lit "along_track"; lit "level"] [2; 2] [Some 1%Q; Some 2%Q; Some 3%Q; Some 4%Q]);
   (lit "ScienceData/p", mkE [lit "along_track"; lit "level"; lit "class"] [2; 2; 2] [Some 100%Q; Some 101%Q; Some 110%Q; None; Some 200%Q; Some 201%Q; Some 210%Q; Some 211%Q])].
Definition ex_asked : str := lit "ScienceData/p_CLASSNUM_1".

(** One row for each pixel, in C order: the positions of the pixel or of its row, the time as days since 1600, the height or the number of the column if there is one, and the value of the variable there, at the index asked for if it has an
    extra dimension in its place; rows without a position are left out.  Missing from the full property: the pixels of the other files; indexes from ten; extra dimensions at other places; positions of other shapes. *)
Theorem C84_pixels_partial (f : efile) (rest : list efile) s n k lo la v lon lat time dims :
  good_file f -> asked_as s n k -> position_in (f :: rest) lo la -> everywhere (f :: rest) n ->
  has f n v -> has f (lit lo) lon -> has f (lit la) lat -> has f (lit "ScienceData/time") time -> pixels v k dims -> length dims = 1 \/ length dims = 2 -> fits lon dims -> fits lat dims -> fits time dims ->
  exists d raw, read_ec (f :: rest) s = Ok (Some d) /\ (exists z, (z = [] \/ z = [Some (lit "altitude")]) /\ map c_std (u_coords d) = [Some (lit "longitude"); Some (lit "latitude"); Some (lit "time")] ++ z) /\
    length raw = cells dims /\
    (forall idx, valid_index dims idx -> exists x y t0 t z o, nth_error raw (flat_pos dims idx) = Some (x :: y :: t :: z, o) /\
       at_pixel lon dims idx x /\ at_pixel lat dims idx y /\ at_pixel time dims idx t0 /\ of_2000 t0 t /\ vertical (f :: rest) f lon v dims idx z /\ pixel v k idx o) /\
    rows d = filter located raw.
Proof. exact (reads_pixels f rest s n k lo la v lon lat time dims). Qed.
Print Assumptions C84_pixels_partial.
Example C84_pixels_case : exists v lon lat time, good_file ex_file /\ asked_as ex_asked (lit "ScienceData/p") 1 /\ position_in [ex_file; ex_file] "ScienceData/longitude" "ScienceData/latitude" /\ everywhere [ex_file; ex_file] (lit "ScienceData/p") /\
  has ex_file (lit "ScienceData/p") v /\ has ex_file (lit "ScienceData/longitude") lon /\ has ex_file (lit "ScienceData/latitude") lat /\ has ex_file (lit "ScienceData/time") time /\
  pixels v 1 [2; 2] /\ fits lon [2; 2] /\ fits lat [2; 2] /\ fits time [2; 2].
Proof.
  assert (EV : forall n, In n (map fst ex_file) -> everywhere [ex_file; ex_file] n) by (intros n H; apply in_map_iff in H; destruct H as ((a & v) & <- & H); repeat constructor; exists v; exact H).
  assert (AS : asked_as ex_asked (lit "ScienceData/p") 1).
  { right. exists "class"%string, 2, "_CLASSNUM_"%string. split; [left; reflexivity|]. split; [repeat constructor|]. split; [reflexivity|]. intros d p mk H M. apply mentions_marked, contains_iff in M. cbn [extra_dims In] in H.
    repeat (destruct H as [H|H]; [apply pair_equal_spec in H; destruct H as (_ & <-); first [reflexivity|vm_compute in M; discriminate]|]). destruct H. }
  do 4 eexists. split; [|split; [exact AS|split; [|split; [apply EV; cbn; tauto|]]]].
  - split; [unfold ex_file; cbn [map fst]; repeat (constructor; [cbn [In]; intros H; repeat (destruct H as [H|H]; [discriminate|]); exact H|]); constructor|].
    intros n v H. cbn [ex_file In] in H. repeat (destruct H as [H|H]; [apply pair_equal_spec in H; destruct H as (_ & <-); split; reflexivity|]). destruct H.
  - left. split; [|auto]. repeat (constructor; [apply EV; cbn; tauto|]). constructor.
  - split; [do 4 right; left; reflexivity|]. split; [left; reflexivity|]. split; [right; left; reflexivity|]. split; [do 2 right; left; reflexivity|]. split; [|split; [|split]]; try (right; exists 2, 2; split; reflexivity).
    right. exists "class"%string, 2, "_CLASSNUM_"%string, [lit "along_track"; lit "level"], [], [2; 2], [], 2. split; [left; reflexivity|]. split; [reflexivity|]. split; [reflexivity|]. split; [|split; [reflexivity|split; [reflexivity|split; [repeat constructor|reflexivity]]]].
    repeat constructor; intros (n & p & mk & H & E); apply lit_inj in E; cbn [extra_dims In] in H; repeat (destruct H as [H|H]; [apply pair_equal_spec in H; destruct H as (H & _); apply pair_equal_spec in H; destruct H as (H & _); congruence|]); destruct H.
Qed.
Example C84_pixels_value : exists d t, read_ec [ex_file; ex_file] ex_asked = Ok (Some d) /\ rows d = [([Some 10%Q; Some 50%Q; Some t; Some 1%Q], Some 101%Q); ([Some 10%Q; Some 50%Q; Some t; Some 2%Q], None)].
Proof. do 2 eexists. split; vm_compute; reflexivity. Qed.

(** A variable of one dimension that is not the positions': its coordinate is the number of the value. *)
Theorem C84_across (f : efile) (rest : list efile) n lo la v lon lat time w :
  good_file f -> asked_as n n 0 -> position_in (f :: rest) lo la -> everywhere (f :: rest) n -> has f n v -> has f (lit lo) lon -> has f (lit la) lat -> has f (lit "ScienceData/time") time ->
  no_extra v -> e_shape v = [w] -> 1 < length (e_shape lon) -> 1 < length (e_shape lat) -> 1 <= length (e_shape time) -> e_shape time <> [w] -> (forall x h, height_in (f :: rest) x -> has f (lit x) h -> e_shape h <> [w]) ->
  exists d, read_ec (f :: rest) n = Ok (Some d) /\ map c_name (u_coords d) = [lit "index_x"] /\ rows d = map (fun j => ([Some (inject_Z (Z.of_nat j))], nth j (e_data v) None)) (seq 0 w).
Proof. exact (across_track f rest n lo la v lon lat time w). Qed.
Print Assumptions C84_across.
Definition ex_msi : efile :=
  [(lit "ScienceData/longitude", mkE [lit "along_track"; lit "across_track"] [1; 2] [Some 10%Q; Some 11%Q]); (lit "ScienceData/latitude", mkE [lit "along_track"; lit "across_track"] [1; 2] [Some 50%Q; Some 51%Q]);
   (lit "ScienceData/time", mkE [lit "along_track"] [1] [Some 0%Q]); (lit "ScienceData/irradiance", mkE [lit "across_track"] [2] [Some 7%Q; Some 8%Q])].
Definition ex_bands : efile := (lit "ScienceData/y", mkE [lit "along_track"; lit "across_track"; lit "band"] [1; 2; 1] [Some 7%Q; Some 8%Q]) :: ex_msi.
Ltac each H := cbn [extra_dims ex_bands ex_msi In] in H; repeat (destruct H as [H|H]; [apply pair_equal_spec in H; destruct H as (H & <-)|]); try destruct H.
Example ex_bands_ok : good_file ex_bands /\ position_in [ex_bands] "ScienceData/longitude" "ScienceData/latitude" /\ asked_as (lit "ScienceData/y") (lit "ScienceData/y") 0 /\ asked_as (lit "ScienceData/irradiance") (lit "ScienceData/irradiance") 0.
Proof.
  assert (EV : forall n, In n (map fst ex_bands) -> everywhere [ex_bands] n) by (intros n H; apply in_map_iff in H; destruct H as ((a & v) & <- & H); repeat constructor; exists v; exact H).
  split; [|split; [left; split; [repeat (constructor; [apply EV; cbn; tauto|]); constructor|auto]|]].
  - split; [unfold ex_bands, ex_msi; cbn [map fst]; repeat (constructor; [cbn [In]; intros H; repeat (destruct H as [H|H]; [discriminate|]); exact H|]); constructor|]. intros n v H. unfold has in H. each H; split; reflexivity.
  - split; left; (split; [reflexivity|split; [reflexivity|]]); intros d p mk H M; apply mentions_marked, contains_iff in M; each H; vm_compute in M; discriminate.
Qed.
Example C84_across_case : exists d, read_ec [ex_bands] (lit "ScienceData/irradiance") = Ok (Some d) /\ map c_name (u_coords d) = [lit "index_x"] /\ rows d = [([Some 0%Q], Some 7%Q); ([Some 1%Q], Some 8%Q)].
Proof.
  destruct ex_bands_ok as (G & P & _ & A). apply (C84_across ex_bands [] _ _ _ (mkE [lit "across_track"] [2] [Some 7%Q; Some 8%Q]) (mkE [lit "along_track"; lit "across_track"] [1; 2] [Some 10%Q; Some 11%Q])
    (mkE [lit "along_track"; lit "across_track"] [1; 2] [Some 50%Q; Some 51%Q]) (mkE [lit "along_track"] [1] [Some 0%Q]) 2 G A P); try solve [cbn [e_shape length]; auto | discriminate].
  - repeat constructor. eexists. do 4 right. left. reflexivity.
  - do 4 right. left. reflexivity.
  - right. left. reflexivity.
  - do 2 right. left. reflexivity.
  - do 3 right. left. reflexivity.
  - constructor; [|constructor]. intros (n & p & mk & H & E). apply lit_inj in E. cbn [extra_dims In] in H. repeat (destruct H as [H|H]; [apply pair_equal_spec in H; destruct H as (H & _); apply pair_equal_spec in H; destruct H as (H & _); congruence|]). destruct H.
  - intros x h H I. exfalso. apply (evar_of_has _ _ _ (proj1 G)) in I. destruct H as [(_ & ->)|(_ & _ & ->)]; vm_compute in I; discriminate.
Qed.

(** A variable the files do not have: refused, or, from files without positions, nothing at all is returned. *)
Theorem C84_missing_refuted files s n k : asked_as s n k -> ~ everywhere files n ->
  ((exists lo la, position_in files lo la) -> read_ec files s = Raises InvalidVariableError) /\ ((forall lo la, ~ position_in files lo la) -> read_ec files s = Ok None).
Proof. exact (missing_variable files s n k). Qed.
Print Assumptions C84_missing_refuted.
Example C84_missing_case : read_ec [ex_file] (lit "ScienceData/q") = Raises InvalidVariableError /\ read_ec [skipn 3 ex_file] (lit "ScienceData/q") = Ok None. Proof. split; vm_compute; reflexivity. Qed.

(** Of several files with the same variables only the first is read. *)
Theorem C84_files_refuted (f : efile) (rest : list efile) s : (forall n, everywhere [f] n -> everywhere (f :: rest) n) -> read_ec (f :: rest) s = read_ec [f] s.
Proof. exact (first_file_only f rest s). Qed.
Print Assumptions C84_files_refuted.
Example C84_files_case : exists d, read_ec [ex_file; ex_file] ex_asked = Ok (Some d) /\ length (rows d) = 2. Proof. eexists. split; vm_compute; reflexivity. Qed.

(** An index of two digits cannot be asked for: a variable with an underscore too many is looked for. *)
Theorem C84_index_refuted files n a b d p mk lo la : In (d, p, mk) extra_dims -> (exists k, k < 10 /\ b = ascii_of_nat (48 + k)) -> (forall d' p' mk', In (d', p', mk') extra_dims -> marked (n ++ lit mk ++ [a; b]) mk' -> mk' = mk) ->
  position_in files lo la -> ~ everywhere files (n ++ lit "_") -> read_ec files (n ++ lit mk ++ [a; b]) = Raises InvalidVariableError.
Proof. exact (two_digits files n a b d p mk lo la). Qed.
Print Assumptions C84_index_refuted.
Example C84_index_case : read_ec [ex_file] (lit "ScienceData/p_CLASSNUM_10") = Raises InvalidVariableError. Proof. vm_compute. reflexivity. Qed.

(** A band that is not the first dimension: the index is used for the first dimension all the same, and the data do not fit their positions. *)
Theorem C84_place_refuted (f : efile) (rest : list efile) n lo la v lon lat time a b e d1 d2 :
  good_file f -> asked_as n n 0 -> position_in (f :: rest) lo la -> everywhere (f :: rest) n -> has f n v -> has f (lit lo) lon -> has f (lit la) lat -> has f (lit "ScienceData/time") time ->
  e_dims v = [d1; d2; lit "band"] -> ~ is_extra d1 -> ~ is_extra d2 -> e_shape v = [a; b; e] -> e_shape lon = [a; b] -> e_shape lat = [a; b] -> e_shape time = [a; b] \/ e_shape time = [a] -> 0 < a -> 0 < b -> e <> a * b ->
  read_ec (f :: rest) n = Raises ValueError.
Proof. exact (band_last f rest n lo la v lon lat time a b e d1 d2). Qed.
Print Assumptions C84_place_refuted.
Example C84_place_case : read_ec [ex_bands] (lit "ScienceData/y") = Raises ValueError. Proof. vm_compute. reflexivity. Qed.

(** An index beyond the extra dimension is refused. *)
Theorem C84_index_beyond (f : efile) (rest : list efile) s n k v m p mk d1 d2 s1 e s2 :
  good_file f -> asked_as s n k -> everywhere (f :: rest) n -> has f n v ->
  In (m, p, mk) extra_dims -> e_dims v = d1 ++ lit m :: d2 -> length d1 = p -> Forall (fun d => ~ is_extra d) (d1 ++ d2) -> e_shape v = s1 ++ e :: s2 -> length s1 = p -> e <= k ->
  exists x, read_ec (f :: rest) s = Raises x.
Proof. exact (index_beyond f rest s n k v m p mk d1 d2 s1 e s2). Qed.
Print Assumptions C84_index_beyond.
Example C84_index_beyond_case : read_ec [ex_file] (lit "ScienceData/p_CLASSNUM_2") = Raises IndexError. Proof. vm_compute. reflexivity. Qed.
