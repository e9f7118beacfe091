(** Proofs for C74: the files together, and refusals. *)
From Coq Require Import String.
From Verif Require Import Base PyStr QBase DateModel DateProofs FileListModel FileListProofs AeroModel AeroSpec AeroProofs ProdModel UngrModel UngrSpec UngrProofs GU2Proofs GU3Proofs GG3Proofs RafModel Raf2Proofs Raf4Proofs HdfModel HdfSpec HdfProofs Hdf2Proofs Hdf3Proofs SunModel SunSpec SunProofs Sun2Proofs.
From Coq Require Import List Ascii Lia.
Import ListNotations.
Open Scope string_scope. Open Scope list_scope. Open Scope nat_scope. Notation length := List.length.

Lemma fold_add_get {V} (ds : list (list (str * V))) : (forall d, In d ds -> NoDup (map fst d)) -> forall acc x,
  dict_get (fold_left add_all ds acc) x = match flat_map (fun d => HdfProofs.opt_list (dict_get d x)) ds with [] => dict_get acc x | l => Some (match dict_get acc x with Some m => m | None => [] end ++ l) end.
Proof.
  induction ds as [|d ds IH]; intros ND acc x; [reflexivity|]. cbn [fold_left flat_map]. rewrite IH by (intros; apply ND; right; auto). rewrite add_all_get by (apply ND; left; auto).
  destruct (dict_get d x) as [v|]; cbn [HdfProofs.opt_list app]; [|reflexivity]. destruct (flat_map _ ds); cbn [app]; [reflexivity|]. rewrite <- app_assoc. reflexivity.
Qed.
Lemma dict_get_map {V W} (g : V -> W) (d : list (str * V)) x : dict_get (map (fun kv => (fst kv, g (snd kv))) d) x = option_map g (dict_get d x).
Proof. induction d as [|[k v] d IH]; [reflexivity|]. cbn [map dict_get fst snd]. destruct (str_eq_dec k x); [reflexivity|exact IH]. Qed.
Definition nm (f : afile) : list str := match get_file_variables (fst f) with Ok n => n | Raises _ => [] end.
Lemma map_res_prefix {A B} (g : A -> res B) pre x post e : (forall y, In y pre -> exists z, g y = Ok z) -> g x = Raises e -> map_res g (pre ++ x :: post) = Raises e.
Proof.
  intros H E. induction pre as [|y pre IH]; cbn [app map_res]; [rewrite E; reflexivity|]. destruct (H y (or_introl eq_refl)) as (z & ->). cbn [bind]. rewrite IH; [reflexivity|]. intros; apply H; right; auto.
Qed.

Section Sun.
Variable float_of : str -> option Q.
Variable stamp : str -> str -> option Q.
Notation load := (load_aeronet float_of stamp).
Notation wanted := (wanted float_of stamp).
Lemma load_short f vs : header_ok f -> length (fst f) <= S (lines_before (snd f)) -> load (fst f) vs = Ok [] /\ data_lines f = [].
Proof.
  intros [V _] L. split; [|unfold data_lines; rewrite skipn_all2 by lia; reflexivity]. unfold load_aeronet, get_file_variables. rewrite (proj2 (version_of _ _) V). cbn [bind].
  destruct (skipn (header_length (snd f) - 1) (fst f)) as [|a [|b l]] eqn:E; cbn [bind]; try reflexivity. exfalso. apply (f_equal (@List.length _)) in E. rewrite skipn_length in E. cbn in E. rewrite header_lines in E. lia.
Qed.
Lemma load_readable variable f : plain_variable variable -> readable float_of stamp variable f -> exists d, load (fst f) [variable] = Ok d /\ NoDup (map fst d) /\
  (forall k R, In (k, R) (wanted f (nm f) variable) -> exists l, Forall2 (fun line o => column_names f (nm f) /\ R line o) (data_lines f) l /\ (dict_get d k = Some l \/ (dict_get d k = None /\ l = []))) /\ (data_lines f = [] -> d = [] \/ d = nothing).
Proof.
  intros PV [H [L|(names & WF & NI)]].
  - destruct (load_short f [variable] H L) as [E D]. exists []. split; [exact E|]. split; [constructor|]. split; [|auto]. intros k R _. exists []. rewrite D. split; [constructor|]. right. auto.
  - assert (N : nm f = names) by (unfold nm; rewrite (column_names_vars f names (proj1 H) (w_names _ _ _ _ WF)); reflexivity). rewrite N. destruct (load_ok float_of stamp f names variable H WF NI PV) as (d & E & ND & C & D). exists d. split; [exact E|]. split; [exact ND|]. split; [|auto].
    intros k R Hk. destruct (C k R Hk) as (l & F & G). exists l. split; [|exact G]. eapply F2_imp; [|exact F]. cbn beta. intros. split; [apply (w_names _ _ _ _ WF)|auto].
Qed.
Lemma column_together (R : afile -> str -> option Q -> Prop) (k : str) files ds :
  Forall2 (fun f d => exists l, Forall2 (R f) (data_lines f) l /\ (dict_get d k = Some l \/ (dict_get d k = None /\ l = []))) files ds ->
  Forall2 (fun fl => R (fst fl) (snd fl)) (all_lines files) (concat (flat_map (fun d => HdfProofs.opt_list (dict_get d k)) ds)).
Proof.
  induction 1 as [|f d files ds (l & F & G) FF IH]; [constructor|]. cbn [flat_map]. change (all_lines (f :: files)) with (map (fun l => (f, l)) (data_lines f) ++ all_lines files). rewrite concat_app. apply Forall2_app; [|exact IH].
  apply F2_map_l. cbn [fst snd]. destruct G as [->|[-> ->]]; cbn [HdfProofs.opt_list concat]; rewrite ?app_nil_r; exact F.
Qed.
Definition Pof (variable : str) (i : nat) : afile * str -> option Q -> Prop := fun fl o => column_names (fst fl) (nm (fst fl)) /\ match nth_error (wanted (fst fl) (nm (fst fl)) variable) i with Some kR => snd kR (snd fl) o | None => False end.
Definition keys (variable : str) : list str := [lit "longitude"; lit "latitude"; lit "altitude"; lit "datetime"; variable].
Lemma together variable files : plain_variable variable -> (forall f, In f files -> readable float_of stamp variable f) ->
  exists ds, map_res (fun lines => load lines [variable]) (map fst files) = Ok ds /\ (forall d, In d ds -> NoDup (map fst d)) /\ (all_lines files = [] -> forall d, In d ds -> d = [] \/ d = nothing) /\
  forall i k, nth_error (keys variable) i = Some k -> Forall2 (Pof variable i) (all_lines files) (concat (flat_map (fun d => HdfProofs.opt_list (dict_get d k)) ds)).
Proof.
  intros PV HR.
  destruct (files_F2 (fun f d => load (fst f) [variable] = Ok d /\ NoDup (map fst d) /\
    (forall k R, In (k, R) (wanted f (nm f) variable) -> exists l, Forall2 (fun line o => column_names f (nm f) /\ R line o) (data_lines f) l /\ (dict_get d k = Some l \/ (dict_get d k = None /\ l = []))) /\ (data_lines f = [] -> d = [] \/ d = nothing)) files) as (ds & F).
  { intros f Hf. apply load_readable; auto. }
  exists ds. split; [|split; [|split]].
  - clear -F. induction F as [|f d files ds (E & _) F IH]; [reflexivity|]. cbn [map map_res]. rewrite E. cbn [bind]. rewrite IH. reflexivity.
  - clear -F. induction F as [|f d files ds (_ & N & _) F IH]; [intros d []|]. intros x [<-|Hx]; auto.
  - clear -F. induction F as [|f d files ds (_ & _ & _ & N) F IH]; [intros _ d []|]. change (all_lines (f :: files)) with (map (fun l => (f, l)) (data_lines f) ++ all_lines files). intros E. apply app_eq_nil in E. destruct E as [E1 E2]. apply map_eq_nil in E1. intros x [<-|Hx]; auto.
  - intros i k Hi. apply (column_together (fun f line o => Pof variable i (f, line) o) k files ds). eapply F2_imp; [|exact F]. cbn beta. intros f d (_ & _ & C & _).
    destruct (nth_error (wanted f (nm f) variable) i) as [[k' R]|] eqn:E.
    + assert (k' = k). { do 5 (destruct i as [|i]; [cbn in E, Hi; congruence|]). destruct i; discriminate. } subst k'. destruct (C k R (nth_error_In _ _ E)) as (l & FL & G). exists l. split; [|exact G]. eapply F2_imp; [|exact FL]. cbn beta. unfold Pof. cbn [fst snd]. rewrite E. auto.
    + exfalso. apply nth_error_None in E. assert (i < 5) by (apply (nth_error_Some (keys variable)); congruence). cbn in E. lia.
Qed.
Lemma sun_rows variable files : plain_variable variable -> (forall f, In f files -> readable float_of stamp variable f) -> all_lines files <> [] ->
  exists d, read_aeronet float_of stamp (map fst files) variable = Ok d /\ map c_std (u_coords d) = sun_names /\ exists raw, Forall2 (sun_row float_of stamp variable) (all_lines files) raw /\ rows d = filter located raw.
Proof.
  intros PV HR NE. destruct (together variable files PV HR) as (ds & E & ND & _ & C).
  assert (G : forall i k, nth_error (keys variable) i = Some k -> exists l, key (map (fun kv : str * list (list (option Q)) => (fst kv, concat (snd kv))) (fold_left add_all ds [])) k = Ok l /\ Forall2 (Pof variable i) (all_lines files) l).
  { intros i k Hi. specialize (C i k Hi). eexists. split; [|exact C]. unfold key. rewrite dict_get_map, fold_add_get by exact ND. destruct (flat_map _ ds) eqn:X; [exfalso; inversion C; congruence|]. reflexivity. }
  destruct (G 0 _ eq_refl) as (lo & K0 & F0). destruct (G 1 _ eq_refl) as (la & K1 & F1). destruct (G 2 _ eq_refl) as (al & K2 & F2). destruct (G 3 _ eq_refl) as (t & K3 & F3). destruct (G 4 _ eq_refl) as (v & K4 & F4).
  unfold read_aeronet, aeronet_create, load_multiple_aeronet. rewrite E. cbn [bind]. unfold aeronet_coords. rewrite K0, K1, K2, K3, K4. cbn [bind].
  rewrite append_distinct; [| |apply (nodupb_ok (option_eq_dec str_eq_dec)); vm_compute; reflexivity].
  2: { intros c Hc. cbn [In] in Hc. destruct Hc as [<-|[<-|[<-|[<-|[]]]]]; vm_compute; discriminate. }
  cbn [bind app].
  set (cs := [named_coord (lit "Longitude") [] [] ([length lo], lo); named_coord (lit "Latitude") [] [] ([length la], la); named_coord (lit "Altitude") [] [] ([length al], al); time_coord (lit "DateTime") (lit "X") ([length t], t)]).
  assert (COL : columns_are (all_lines files) cs [Pof variable 0; Pof variable 1; Pof variable 2; Pof variable 3]) by (repeat (apply Forall2_cons; [assumption|]); apply Forall2_nil).
  destruct (rows_of_columns (all_lines files) cs _ (Pof variable 4) [length v] v (sun_row float_of stamp variable) COL F4) as (d & ED & EN & RR).
  { intros [f line] [pos o] HF HV. cbn [fst snd] in *. apply F2inv in HF. destruct HF as (o0 & p0 & -> & P0 & HF). apply F2inv in HF. destruct HF as (o1 & p1 & -> & P1 & HF). apply F2inv in HF. destruct HF as (o2 & p2 & -> & P2 & HF). apply F2inv in HF. destruct HF as (o3 & p3 & -> & P3 & HF). inversion HF; subst.
    unfold Pof in *. cbn [fst snd nth_error Sun2Proofs.wanted] in *. exists (nm f), o0, o1, o2, o3. tauto. }
  exists d. split; [exact ED|]. split; [rewrite EN; vm_compute; reflexivity|exact RR].
Qed.
Lemma sun_nothing variable files : plain_variable variable -> (forall f, In f files -> readable float_of stamp variable f) -> all_lines files = [] -> read_aeronet float_of stamp (map fst files) variable = Raises KeyError.
Proof.
  intros PV HR EM. destruct (together variable files PV HR) as (ds & E & ND & D & _). specialize (D EM). unfold read_aeronet, aeronet_create, load_multiple_aeronet. rewrite E. cbn [bind].
  set (data := map _ _). assert (V : dict_get data variable = None).
  { unfold data. rewrite dict_get_map, fold_add_get by exact ND. replace (flat_map _ ds) with (@nil (list (option Q))); [reflexivity|]. symmetry. clear -D PV. induction ds as [|d ds IH]; [reflexivity|]. cbn [flat_map]. rewrite IH by (intros; apply D; right; auto). rewrite app_nil_r.
    unfold plain_variable in PV. cbn [In] in PV. destruct (D d (or_introl eq_refl)) as [->| ->]; [reflexivity|]. unfold nothing. cbn [dict_get]. repeat (destruct (str_eq_dec _ _) as [X|_]; [exfalso; rewrite X in PV; tauto|]). reflexivity. }
  unfold aeronet_coords, key. rewrite V.
  destruct (dict_get data (lit "longitude")) as [lo|]; cbn [bind]; [|reflexivity]. destruct (dict_get data (lit "latitude")) as [la|]; cbn [bind]; [|reflexivity]. destruct (dict_get data (lit "altitude")) as [al|]; cbn [bind]; [|reflexivity]. destruct (dict_get data (lit "datetime")) as [t|]; cbn [bind]; [|reflexivity].
  rewrite append_distinct; [reflexivity| |apply (nodupb_ok (option_eq_dec str_eq_dec)); vm_compute; reflexivity]. intros c Hc. cbn [In] in Hc. destruct Hc as [<-|[<-|[<-|[<-|[]]]]]; vm_compute; discriminate.
Qed.
Lemma first_refusal variable pre f post : plain_variable variable -> (forall g, In g pre -> readable float_of stamp variable g) -> load (fst f) [variable] = Raises InvalidVariableError -> read_aeronet float_of stamp (map fst (pre ++ f :: post)) variable = Raises InvalidVariableError.
Proof.
  intros PV HR E. unfold read_aeronet, aeronet_create, load_multiple_aeronet. rewrite map_app. cbn [map]. rewrite (map_res_prefix _ (map fst pre) (fst f) (map fst post) InvalidVariableError); [reflexivity| |exact E].
  intros y Hy. apply in_map_iff in Hy. destruct Hy as (g & <- & Hg). destruct (load_readable variable g PV (HR g Hg)) as (d & Ed & _). eauto.
Qed.
Lemma names_match {A} (names : list str) (X Y : A) : names <> [] -> match names with [] => X | _ :: _ => Y end = Y.
Proof. destruct names; congruence. Qed.
Lemma sun_missing variable pre f post names : plain_variable variable -> (forall g, In g pre -> readable float_of stamp variable g) -> header_ok f -> column_names f names -> ~ In variable names ->
  read_aeronet float_of stamp (map fst (pre ++ f :: post)) variable = Raises InvalidVariableError.
Proof.
  intros PV HR [V _] CN NI. apply first_refusal; auto. unfold load_aeronet. rewrite (proj2 (version_of _ _) V). cbn [bind]. rewrite (column_names_vars f names V CN). cbn [bind]. rewrite names_match by (apply (names_length f names CN)). cbv zeta.
  match goal with |- (if negb (_ && ?c) then _ else _) = _ => assert (X : c = false) end; [|rewrite X, Bool.andb_false_r; reflexivity].
  apply Bool.not_true_iff_false. intros X. rewrite forallb_forall in X. apply NI, isin_iff, X. right. right. apply in_app_iff. right. left. reflexivity.
Qed.
Lemma sun_bad variable pre f post names : plain_variable variable -> (forall g, In g pre -> readable float_of stamp variable g) -> header_ok f -> well_formed float_of stamp f names ->
  (exists line s, In line (data_lines f) /\ field names line variable s /\ ~ is_number_text float_of s) ->
  read_aeronet float_of stamp (map fst (pre ++ f :: post)) variable = Raises InvalidVariableError.
Proof.
  intros PV HR H WF (line & s & Hl & Fs & NN). apply first_refusal; auto. destruct H as [V HB]. pose proof (w_names _ _ _ _ WF) as CN. unfold load_aeronet. rewrite (proj2 (version_of _ _) V). cbn [bind]. rewrite (column_names_vars f names V CN). cbn [bind]. rewrite names_match by (apply (names_length f names CN)). cbv zeta.
  destruct (negb _); [reflexivity|]. match goal with |- match ?m with _ => _ end = _ => destruct m as [numbers|] eqn:E end; [exfalso|reflexivity]. destruct (keyed_columns _ _ _ E) as [_ K].
  assert (HV : In variable names) by (destruct Fs as (t & fs & i & _ & _ & Hi & _); eapply nth_error_In; eauto).
  destruct (K variable) as (l & _ & El); [|apply NoDup_nodup|].
  { apply nodup_In, filter_In. split; [apply in_app_iff; right; left; reflexivity|]. apply Bool.negb_true_iff, isin_not. unfold plain_variable in PV. cbn [In] in *. tauto. }
  cbv beta in El. rewrite (recs_are float_of stamp f names (conj V HB) WF) in El. apply map_res_ok in El. apply F2_map_l in El. destruct (In_nth_error _ _ Hl) as (i & Hi). destruct (F2_nth_l _ _ _ El _ _ Hi) as (o & _ & Eo).
  assert (CF : cell names variable (split_on "," (remove_char newline line)) = s).
  { destruct Fs as (t & fs & j & N & P & Hj & Hs). apply newlines_iff in N. apply pieces_iff in P. unfold cell. rewrite (index_at names (w_distinct _ _ _ _ WF) j variable Hj), N, P. symmetry. exact Hs. }
  rewrite CF in Eo. unfold csv_number in Eo. destruct (isin s na_texts) eqn:I; [apply NN; left; apply isin_iff; exact I|]. destruct (float_of s) as [q|] eqn:F; [apply NN; right; eauto|discriminate].
Qed.
End Sun.
