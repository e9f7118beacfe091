(** C85: MODIS Level 3 files. *)
From Coq Require Import String.
From Verif Require Import Base PyStr QBase HdfProofs M3Model M3Spec M3Proofs.
From Coq Require Import List Ascii Lia.
Import ListNotations.
Open Scope string_scope. Open Scope list_scope. Open Scope nat_scope. Notation length := List.length.

(** The value of an object in the attributes of a file is found whatever stands in the other attributes and objects, in whatever attribute it is, if no attribute before mentions it. *)
Theorem C85_value : forall attrs kw val, described attrs kw val -> parse_datetime [] attrs (lit kw) = Ok val.
Proof. exact date_found. Qed.
Print Assumptions C85_value.
(** A cube for each file, in order: its latitudes across dimension 0, its longitudes across dimension 1, its values, and as its time the moment half-way between its beginning and its end, which are the bounds; one file gives its cube, several are merged by iris. *)
Theorem C85_partial : forall parse together files, Forall (fun f => exists lat lon s e, good_file parse f lat lon s e) files ->
  exists cs, Forall2 (fun f c => forall lat lon s e, good_file parse f lat lon s e -> cube_of f lat lon s e c) files cs /\ create_data_object parse together files = match cs with [c] => Ok c | _ => together cs end.
Proof. exact reads_cubes. Qed.
Print Assumptions C85_partial.
(** A file that does not say when it begins is refused, if the parser of dates refuses a blank. *)
Theorem C85_undated : forall parse together f rest lat lon, axis (m_lat f) lat -> axis (m_lon f) lon -> not_described (m_attrs f) "RANGEBEGINNINGDATE" -> not_described (m_attrs f) "RANGEBEGINNINGTIME" -> parse (lit " ") = Raises ValueError -> create_data_object parse together (f :: rest) = Raises ValueError.
Proof. exact undated. Qed.
Print Assumptions C85_undated.
(** Refuted: an attribute that is not a text makes the file unreadable if it comes before the one that has the date. *)
Theorem C85_refuted : forall l r kw, not_described l kw -> parse_datetime [] (l ++ Other :: r) (lit kw) = Raises AttributeError.
Proof. exact not_a_text. Qed.
Print Assumptions C85_refuted.
(** The variables offered: those on the two dimensions of the grid, of any file, each once. *)
Theorem C85_offered : forall files, NoDup (offered files) /\ forall n, In n (offered files) <-> exists f, In f files /\ In (n, [lit "YDim:mod08"; lit "XDim:mod08"]) f.
Proof. intros files. split; [apply offered_nodup|intros n; apply offered_iff]. Qed.
Print Assumptions C85_offered.
(** Examples *)
Definition nl : str := [line_end].
Definition object (kw val : string) : str := lit "OBJECT = " ++ lit kw ++ nl ++ lit " NUM_VAL = 1" ++ nl ++ lit " VALUE = " ++ [quotation] ++ lit val ++ [quotation] ++ nl ++ lit "END_OBJECT = " ++ lit kw ++ nl.
Definition core : str := object "SHORTNAME" "MOD08_D3" ++ object "RANGEBEGINNINGDATE" "2010-01-01" ++ object "RANGEBEGINNINGTIME" "00:00:00" ++ object "RANGEENDINGDATE" "2010-01-01" ++ object "RANGEENDINGTIME" "23:59:59".
Definition ex_attrs : list attr := [Text (lit "HDFEOS_V2.19"); Text core; Other].
Definition mid : str := nl ++ lit " NUM_VAL = 1" ++ nl ++ lit " VALUE = ".
Definition rest_of (kw val : string) : str := lit kw ++ mid ++ [quotation] ++ lit val ++ [quotation] ++ nl.
Definition at_kw (kw : string) : nat := match find_from (lit kw) core with Some n => n | None => 0 end.
Lemma ex_one (kw val : string) (post : str) : core = firstn (at_kw kw) core ++ lit kw ++ mid ++ [quotation] ++ lit val ++ [quotation] ++ nl ++ lit "END_OBJECT" ++ post -> find_from (lit kw) core = Some (length (firstn (at_kw kw) core)) ->
  find_from (lit "END_OBJECT") (lit kw ++ mid ++ [quotation] ++ lit val ++ [quotation] ++ nl ++ lit "END_OBJECT" ++ post) = Some (length (rest_of kw val)) ->
  find_from (lit kw) (lit "HDFEOS_V2.19") = None -> existsb (fun c => Ascii.eqb c quotation) (lit kw ++ lit val) = false -> existsb (fun c => Ascii.eqb c line_end) (lit val) = false -> lit val <> [] -> described ex_attrs kw (lit val).
Proof.
  intros E F1 F2 F3 Q1 Q2 NE. exists [Text (lit "HDFEOS_V2.19")], core, [Other]. split; [reflexivity|]. assert (NQ : forall c l, existsb (fun x => Ascii.eqb x c) l = false -> ~ In c l).
  { intros c l X I. apply Bool.not_true_iff_false in X. apply X. apply existsb_exists. exists c. split; [exact I|apply Ascii.eqb_refl]. } apply NQ in Q1, Q2. split.
  - exists (firstn (at_kw kw) core), mid, nl, post. split; [exact E|]. split; [intros x y X; exact (find_is_first _ _ _ _ _ F1 X)|]. split; [intros x y X; exact (find_is_first _ _ _ _ _ F2 X)|].
    split; [intros X; apply Q1, in_or_app; left; exact X|]. split; [apply NQ; vm_compute; reflexivity|]. split; [apply NQ; vm_compute; reflexivity|]. split; [exact NE|]. split; [intros X; apply Q1, in_or_app; right; exact X|exact Q2].
  - constructor; [|constructor]. eexists. split; [reflexivity|]. intros X. destruct (occurs_found _ _ X) as (i & Z). congruence.
Qed.
Definition after (kw val : string) : str := skipn (at_kw kw + length (rest_of kw val) + 10) core.
Example ex_described : described ex_attrs "RANGEBEGINNINGDATE" (lit "2010-01-01") /\ described ex_attrs "RANGEBEGINNINGTIME" (lit "00:00:00") /\ described ex_attrs "RANGEENDINGDATE" (lit "2010-01-01") /\ described ex_attrs "RANGEENDINGTIME" (lit "23:59:59").
Proof.
  split; [apply (ex_one _ _ (after "RANGEBEGINNINGDATE" "2010-01-01"))|split; [apply (ex_one _ _ (after "RANGEBEGINNINGTIME" "00:00:00"))|split; [apply (ex_one _ _ (after "RANGEENDINGDATE" "2010-01-01"))|apply (ex_one _ _ (after "RANGEENDINGTIME" "23:59:59"))]]];
    first [discriminate | vm_compute; reflexivity].
Qed.
Definition ex_parse (s : str) : res Q := if str_eqb s (lit "2010-01-01 00:00:00") then Ok 149750%Q else if str_eqb s (lit "2010-01-01 23:59:59") then Ok (149750 + (86399 # 86400))%Q else Raises ValueError.
Definition ex_file : mfile := mkM ex_attrs [Some 45; Some (-45)]%Q [Some (-90); Some 0; Some 90]%Q [[Some 1; None; Some 3]; [Some 4; Some 5; Some 6]]%Q.
Example C85_case : good_file ex_parse ex_file [45; -45]%Q [-90; 0; 90]%Q 149750%Q (149750 + (86399 # 86400))%Q.
Proof.
  destruct ex_described as (D1 & D2 & D3 & D4). split; [|split; [|split; [reflexivity|split; [repeat constructor|]]]].
  - split; [reflexivity|]. split; [discriminate|]. right. intros [|[|i]] x y; cbn; [intros [= <-] [= <-]; reflexivity|discriminate|destruct i; discriminate].
  - split; [reflexivity|]. split; [discriminate|]. left. intros [|[|[|i]]] x y; cbn; [intros [= <-] [= <-]; reflexivity|intros [= <-] [= <-]; reflexivity|discriminate|destruct i; discriminate].
  - exists (lit "2010-01-01"), (lit "00:00:00"), (lit "2010-01-01"), (lit "23:59:59"). repeat (split; [assumption|]). split; reflexivity.
Qed.
Example C85_value_case : exists c, create_data_object ex_parse (fun _ => Raises ValueError) [ex_file] = Ok c /\ (c_point c == 149750 + (86399 # 172800))%Q.
Proof. eexists. split; [vm_compute; reflexivity|]. reflexivity. Qed.

(** A text with fewer than two quotation marks states nothing: the next attribute is looked at. *)
Theorem C85_unquoted : forall s kw acc rest, count_occ ascii_dec s quotation < 2 -> parse_datetime acc (Text s :: rest) kw = parse_datetime acc rest kw.
Proof. exact unquoted. Qed.
Print Assumptions C85_unquoted.
Example C85_unquoted_case : parse_datetime [] [Text (lit "RANGEBEGINNINGDATE " ++ [quotation] ++ lit "2010 END_OBJECT"); Text core] (lit "RANGEBEGINNINGDATE") = Ok (lit "2010-01-01"). Proof. vm_compute. reflexivity. Qed.
