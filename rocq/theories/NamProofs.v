(** Proofs for C95. *)
From Coq Require Import String.
From Verif Require Import Base PyStr FileListModel FileListProofs ProdModel ProdProofs LstModel LstSpec LstProofs HdfModel HdfSpec HdfProofs NamModel NamSpec.
From Coq Require Import List Ascii Lia.
Import ListNotations.
Open Scope string_scope. Open Scope list_scope. Open Scope nat_scope. Notation length := List.length.

(** ** NetCDF *)
Lemma get_iff {A} (d : list (str * A)) k v : NoDup (map fst d) -> (dict_get d k = Some v <-> In (k, v) d).
Proof. intros ND. split; [apply LstProofs.dict_get_in|apply LstProofs.in_dict_get; exact ND]. Qed.
Lemma descend_iff path : forall g h, lawful g -> (descend g path = Ok h <-> leads g path h).
Proof.
  induction path as [|k path IH]; intros [vars subs] h L; cbn [descend subs_of].
  - split; [intros [= <-]; constructor|intros X; inversion X; reflexivity].
  - inversion L as [? ? _ _ ND _ LS]; subst. split.
    + destruct (dict_get subs k) as [g|] eqn:G; [|discriminate]. intros E. apply LstProofs.dict_get_in in G. eapply via; [exact G|]. apply IH; eauto.
    + intros X. inversion X as [|? ? ? g ? ? G X']; subst. rewrite (proj2 (get_iff subs k g ND) G). apply IH; eauto.
Qed.
Lemma descend_error path : forall g e, descend g path = Raises e -> e = KeyError.
Proof. induction path as [|k path IH]; intros g e; cbn [descend]; [discriminate|]. destruct (dict_get _ _); [apply IH|congruence]. Qed.
Lemma leads_located g path h name dims : leads g path h -> In (name, dims) (vars_of h) -> located g path name dims.
Proof. induction 1 as [[vars subs]|vars subs k g path h G X IH]; intros I; [apply here; exact I|eapply below; eauto]. Qed.
Lemma located_leads g path name dims : located g path name dims -> exists h, leads g path h /\ In (name, dims) (vars_of h).
Proof. induction 1 as [vars subs name dims I|vars subs k g path name dims G X (h & L & I)]; [exists (Group vars subs); split; [constructor|exact I]|exists h; split; [econstructor; eauto|exact I]]. Qed.
Lemma leads_lawful g path h : leads g path h -> lawful g -> lawful h.
Proof. induction 1 as [|vars subs k g path h G X IH]; intros L; [exact L|]. inversion L; subst. eauto. Qed.
Lemma lawful_vars g : lawful g -> NoDup (map fst (vars_of g)).
Proof. destruct g. inversion 1; subst. assumption. Qed.
Lemma removelast_last (l : list str) : l <> [] -> removelast l ++ [last l []] = l.
Proof. intros N. symmetry. apply app_removelast_last. exact N. Qed.
Lemma parts_name n : n = full_name (removelast (split_on "/" n)) (last (split_on "/" n) []).
Proof. rewrite full_join, removelast_last by apply split_on_nonnil. symmetry. apply join_split. Qed.
Lemma name_parts path name : (forall p, In p (path ++ [name]) -> plain p) -> split_on "/" (full_name path name) = path ++ [name].
Proof. intros P. rewrite full_join. apply split_join; [destruct path; discriminate|exact P]. Qed.
Lemma read_iff root n dims : lawful root -> (read_one root n = Ok dims <-> names root n dims).
Proof.
  intros L. unfold read_one. split.
  - destruct (descend root (removelast (split_on "/" n))) as [g|] eqn:D; [|discriminate]. cbn [bind]. destruct (dict_get (vars_of g) (last (split_on "/" n) [])) as [v|] eqn:G; [|discriminate]. intros [= ->].
    exists (removelast (split_on "/" n)), (last (split_on "/" n) []). split; [|apply parts_name]. apply LstProofs.dict_get_in in G. eapply leads_located; [|exact G]. apply descend_iff; auto.
  - intros (path & name & X & ->). rewrite (name_parts path name (located_plain root path name dims X L)). rewrite removelast_app by discriminate. cbn [removelast]. rewrite app_nil_r, last_last.
    destruct (located_leads _ _ _ _ X) as (h & LD & I). rewrite (proj2 (descend_iff path root h L) LD). cbn [bind]. rewrite (proj2 (get_iff (vars_of h) name dims (lawful_vars h (leads_lawful _ _ _ LD L))) I). reflexivity.
Qed.
Lemma listed_iff root n dims : lawful root -> (In (n, dims) (all_variables root) <-> read_one root n = Ok dims).
Proof. intros L. rewrite (read_iff root n dims L). apply (groups_ok root L). Qed.
Lemma unknown_variable root path g name : lawful root -> leads root path g -> ~ In name (map fst (vars_of g)) -> (forall p, In p (path ++ [name]) -> plain p) -> read_one root (full_name path name) = Raises InvalidVariableError.
Proof.
  intros L LD NI P. unfold read_one. rewrite (name_parts path name P). rewrite removelast_app by discriminate. cbn [removelast]. rewrite app_nil_r, last_last. rewrite (proj2 (descend_iff path root g L) LD). cbn [bind].
  destruct (dict_get (vars_of g) name) eqn:G; [|reflexivity]. exfalso. apply NI. apply LstProofs.dict_get_in in G. apply in_map_iff. exists (name, l). auto.
Qed.
Lemma unknown_group root path name : lawful root -> (forall g, ~ leads root path g) -> (forall p, In p (path ++ [name]) -> plain p) -> read_one root (full_name path name) = Raises KeyError.
Proof.
  intros L N P. unfold read_one. rewrite (name_parts path name P). rewrite removelast_app by discriminate. cbn [removelast]. rewrite app_nil_r.
  destruct (descend root path) as [g|e] eqn:D; [exfalso; apply (N g); apply descend_iff; auto|]. cbn [bind]. rewrite (descend_error _ _ _ D). reflexivity.
Qed.

Lemma read_names_ok root l : forall data d, read_names root l data = Ok d ->
  (forall n, In n l -> exists v, read_one root n = Ok v) /\ (forall n, dict_get d n = if in_dec str_eq_dec n l then match read_one root n with Ok v => Some v | Raises _ => None end else dict_get data n) /\ (NoDup (map fst data) -> NoDup (map fst d)).
Proof.
  induction l as [|x l IH]; intros data d E; cbn [read_names] in E.
  - injection E as <-. split; [intros ? []|]. split; [intros n; destruct (in_dec _ _ _) as [[]|]; reflexivity|auto].
  - destruct (read_one root x) as [v|] eqn:R; [|discriminate]. cbn [bind] in E. destruct (IH _ _ E) as (A & B & C). split; [intros n [<-|I]; eauto|]. split.
    + intros n. rewrite B. rewrite dict_get_set. destruct (in_dec str_eq_dec n l) as [I|I], (in_dec str_eq_dec n (x :: l)) as [J|J]; try reflexivity.
      * exfalso. apply J. right. exact I.
      * destruct J as [->|J]; [|contradiction]. rewrite R. destruct (str_eq_dec n n); [reflexivity|congruence].
      * destruct (str_eq_dec x n) as [->|]; [exfalso; apply J; left; reflexivity|reflexivity].
    + intros ND. apply C. apply dict_set_nodup. exact ND.
Qed.
Lemma read_names_total root l : forall data, (forall n, In n l -> exists v, read_one root n = Ok v) -> exists d, read_names root l data = Ok d.
Proof. induction l as [|x l IH]; intros data H; cbn [read_names]; [eauto|]. destruct (H x (or_introl eq_refl)) as (v & ->). cbn [bind]. apply IH. intros n I. apply H. right. exact I. Qed.
Definition ok_file (ns : list str) (f : option group) : Prop := exists root, f = Some root /\ forall n, In n ns -> exists v, read_one root n = Ok v.
Definition val (n : str) (f : option group) : list str := match f with Some root => match read_one root n with Ok v => v | _ => [] end | None => [] end.
Lemma individually_ok files ns : forall data d, individually data files ns = Ok d ->
  Forall (ok_file ns) files /\ (forall n, dict_get d n = if in_dec str_eq_dec n ns then match files with [] => dict_get data n | _ => Some (match dict_get data n with Some m => m | None => [] end ++ map (val n) files) end else dict_get data n).
Proof.
  induction files as [|f files IH]; intros data d E; cbn [individually] in E.
  - injection E as <-. split; [constructor|]. intros n. destruct (in_dec _ _ _); reflexivity.
  - destruct f as [root|]; [|discriminate]. cbn [read_file] in E. destruct (read_names root ns []) as [d1|] eqn:R; [|discriminate]. cbn [bind] in E.
    destruct (read_names_ok root ns [] d1 R) as (A & B & C). destruct (IH _ _ E) as (F & G). split; [constructor; [exists root; auto|exact F]|]. intros n. rewrite G. rewrite add_all_get by (apply C; constructor). rewrite B.
    destruct (in_dec str_eq_dec n ns) as [I|I]; [|reflexivity]. destruct (A n I) as (v & V). rewrite V. assert (VV : val n (Some root) = v) by (cbn [val]; rewrite V; reflexivity).
    destruct files as [|f2 files]; [cbn [map]; rewrite VV; reflexivity|]. f_equal. cbn [map]. rewrite VV. rewrite <- app_assoc. reflexivity.
Qed.
Lemma individually_total files ns : forall data, Forall (ok_file ns) files -> exists d, individually data files ns = Ok d.
Proof.
  induction files as [|f files IH]; intros data F; cbn [individually]; [eauto|]. inversion F as [|? ? (root & -> & H) F']; subst. cbn [read_file]. destruct (read_names_total root ns [] H) as (d & ->). cbn [bind]. apply IH. exact F'.
Qed.
Lemma many_ok files ns : files <> [] -> (forall root, In (Some root) files -> lawful root) ->
  ((exists d, read_many_files_individually files ns = Ok d) <-> forall f, In f files -> exists root, f = Some root /\ forall n, In n ns -> exists dims, names root n dims) /\
  forall d, read_many_files_individually files ns = Ok d -> (forall n, In n (map fst d) <-> In n ns) /\
    forall n, In n ns -> exists vs, dict_get d n = Some vs /\ Forall2 (fun f v => exists root, f = Some root /\ names root n v) files vs.
Proof.
  intros NE L. assert (Q : Forall (ok_file ns) files <-> forall f, In f files -> exists root, f = Some root /\ forall n, In n ns -> exists dims, names root n dims).
  { rewrite Forall_forall. split; intros H f I; destruct (H f I) as (root & -> & X); exists root; (split; [reflexivity|]); intros n J; destruct (X n J) as (v & V); exists v; apply (read_iff root n v (L root I)); exact V. }
  unfold read_many_files_individually. split.
  - rewrite <- Q. split; [intros (d & E); apply (individually_ok _ _ _ _ E)|apply individually_total].
  - intros d E. destruct (individually_ok _ _ _ _ E) as (F & G). split.
    + intros n. rewrite <- FileListProofs.dict_get_in. rewrite G. destruct (in_dec str_eq_dec n ns) as [I|I].
      * split; [auto|]. intros _. destruct files; [contradiction|discriminate].
      * split; [intros X; exfalso; apply X; reflexivity|contradiction].
    + intros n I. specialize (G n). destruct (in_dec str_eq_dec n ns) as [_|]; [|contradiction]. cbn [dict_get app] in G. exists (map (val n) files). split; [destruct files; [contradiction|exact G]|].
      clear G E NE Q. induction F as [|f files (root & -> & H) F IH]; [constructor|]. cbn [map]. constructor; [|apply IH; intros r J; apply L; right; exact J].
      exists root. split; [reflexivity|]. destruct (H n I) as (v & V). cbn [val]. rewrite V. apply read_iff; [apply L; left; reflexivity|exact V].
Qed.

(** ** HDF4 *)
Section Hdf.
Context {SD VD : Type}.
Implicit Types (f : hfile SD VD) (files : list (hfile SD VD)).
Lemma sd_read_get f vars x : dict_get (sd_read f vars) x = if in_dec str_eq_dec x vars then dataset (h_sd f) x else None.
Proof.
  unfold sd_read. rewrite picked_get, dataset_get. destruct (in_dec str_eq_dec x (nodup str_eq_dec vars)) as [I|I], (in_dec str_eq_dec x vars) as [J|J]; try reflexivity.
  - exfalso. apply J. apply nodup_In in I. exact I.
  - exfalso. apply I. apply nodup_In. exact J.
Qed.
Lemma sd_read_nodup f vars : NoDup (map fst (sd_read f vars)).
Proof. apply picked_nodup, NoDup_nodup. Qed.
Lemma vd_read_get f l : forall x, dict_get (vd_read f l) x = if in_dec str_eq_dec x l then dataset (h_vd f) x else None.
Proof.
  intros x. unfold vd_read. rewrite <- dataset_get. set (step := fun d x => _). assert (H : forall d, dict_get (fold_left step l d) x = if in_dec str_eq_dec x l then match dict_get (h_vd f) x with Some v => Some v | None => dict_get d x end else dict_get d x).
  { induction l as [|y l IH]; intros d; [reflexivity|]. cbn [fold_left]. rewrite IH. unfold step. destruct (in_dec str_eq_dec x l) as [I|I], (in_dec str_eq_dec x (y :: l)) as [J|J].
    - destruct (dict_get (h_vd f) x) eqn:G; [reflexivity|]. destruct (dict_get (h_vd f) y) eqn:G'; [|reflexivity]. rewrite dict_get_set. destruct (str_eq_dec y x); [congruence|reflexivity].
    - exfalso. apply J. right. exact I.
    - destruct J as [->|J]; [|contradiction]. destruct (dict_get (h_vd f) x) eqn:G; [|reflexivity]. rewrite dict_get_set. destruct (str_eq_dec x x); [reflexivity|congruence].
    - destruct (dict_get (h_vd f) y) eqn:G'; [|reflexivity]. rewrite dict_get_set. destruct (str_eq_dec y x) as [->|]; [exfalso; apply J; left; reflexivity|reflexivity]. }
  rewrite H. cbn [dict_get]. destruct (in_dec str_eq_dec x l); [destruct (dict_get (h_vd f) x); reflexivity|reflexivity].
Qed.
Lemma vd_read_nodup f l : NoDup (map fst (vd_read f l)).
Proof.
  unfold vd_read. assert (H : forall d : list (str * VD), NoDup (map fst d) -> NoDup (map fst (fold_left (fun d x => match dict_get (h_vd f) x with Some v => dict_set d x v | None => d end) l d))); [|apply H; constructor].
  induction l as [|y l IH]; intros d ND; [exact ND|]. cbn [fold_left]. apply IH. destruct (dict_get (h_vd f) y); [apply dict_set_nodup|]; exact ND.
Qed.
Notation count := (count_occ str_eq_dec).
Lemma count_remove1 l : forall k x, count (remove1 l k) x = if str_eq_dec k x then count l x - 1 else count l x.
Proof.
  induction l as [|y l IH]; intros k x; cbn [remove1 count_occ]; [destruct (str_eq_dec k x); reflexivity|]. unfold str_eqb. destruct (str_eq_dec y k) as [->|N].
  - destruct (str_eq_dec k x); lia.
  - cbn [count_occ]. rewrite IH. destruct (str_eq_dec y x) as [->|], (str_eq_dec k x); try congruence; reflexivity.
Qed.
Lemma count_removes ks : forall l x, NoDup ks -> count (fold_left remove1 ks l) x = if in_dec str_eq_dec x ks then count l x - 1 else count l x.
Proof.
  induction ks as [|k ks IH]; intros l x ND; [reflexivity|]. inversion ND; subst. cbn [fold_left]. rewrite IH by auto. rewrite count_remove1. destruct (in_dec str_eq_dec x ks) as [I|I], (in_dec str_eq_dec x (k :: ks)) as [J|J], (str_eq_dec k x) as [->|N]; try reflexivity; try contradiction.
  all: try (exfalso; apply J; right; exact I). all: try (exfalso; apply J; left; reflexivity). destruct J; [congruence|contradiction].
Qed.
(** the tables: where there is no dataset, or everywhere when the name is asked for again *)
Definition tables (once : bool) (x : str) f : option VD := if once then own_table x f else dataset (h_vd f) x.
Lemma vds_get f vars x : In x vars -> dict_get (vd_read f (fold_left remove1 (map fst (sd_read f vars)) vars)) x = tables (count vars x =? 1) x f.
Proof.
  intros I. rewrite vd_read_get. pose proof (count_removes (map fst (sd_read f vars)) vars x (sd_read_nodup f vars)) as C. assert (P : count vars x > 0) by (apply count_occ_In; exact I).
  assert (K : In x (map fst (sd_read f vars)) <-> dataset (h_sd f) x <> None). { rewrite <- FileListProofs.dict_get_in, sd_read_get. destruct (in_dec str_eq_dec x vars); [reflexivity|contradiction]. }
  unfold tables, own_table. destruct (in_dec str_eq_dec x (map fst (sd_read f vars))) as [J|J].
  - apply K in J. destruct (dataset (h_sd f) x); [|congruence]. destruct (Nat.eqb_spec (count vars x) 1) as [E|E].
    + destruct (in_dec _ _ _) as [X|X]; [|reflexivity]. exfalso. apply (count_occ_In str_eq_dec) in X. lia.
    + destruct (in_dec _ _ _) as [X|X]; [reflexivity|]. exfalso. apply X. apply (count_occ_In str_eq_dec). lia.
  - assert (D : dataset (h_sd f) x = None) by (destruct (dataset (h_sd f) x); [exfalso; apply J, K; discriminate|reflexivity]). rewrite D. destruct (in_dec _ _ _) as [X|X]; [destruct (_ =? _); reflexivity|]. exfalso. apply X. apply (count_occ_In str_eq_dec). lia.
Qed.
Lemma handles_ok f vars s v : hdf4_handles f vars = Ok (s, v) ->
  hdf_name (h_name f) /\ NoDup (map fst s) /\ NoDup (map fst v) /\ (forall x, In x vars -> dict_get s x = dataset (h_sd f) x /\ dict_get v x = tables (count vars x =? 1) x f /\ in_file f x) /\ s = sd_read f vars.
Proof.
  unfold hdf4_handles. destruct (ends_with (lit ".hdf") (h_name f)) eqn:EN; [|discriminate]. cbn [negb]. match goal with |- (if ?b then _ else _) = _ -> _ => destruct b eqn:FB end; [|discriminate]. intros [= <- <-].
  split; [apply ends_iff; auto|]. split; [apply sd_read_nodup|]. split; [apply vd_read_nodup|]. split; [|reflexivity]. intros x I. rewrite vds_get by exact I. rewrite forallb_forall in FB. specialize (FB x I). rewrite vds_get in FB by exact I. rewrite sd_read_get in *. destruct (in_dec str_eq_dec x vars); [|contradiction].
  split; [reflexivity|]. split; [reflexivity|]. unfold in_file, tables, own_table in *. destruct (dataset (h_sd f) x); [left; discriminate|]. right. destruct (_ =? _), (dataset (h_vd f) x); congruence.
Qed.
Lemma handles_total f vars : hdf_name (h_name f) -> (forall x, In x vars -> in_file f x) -> exists s v, hdf4_handles f vars = Ok (s, v).
Proof.
  intros N H. unfold hdf4_handles. apply ends_iff in N. rewrite N. cbn [negb]. match goal with |- exists _ _, (if ?b then _ else _) = _ => assert (FB : b = true); [|rewrite FB; eauto] end.
  apply forallb_forall. intros x I. rewrite vds_get by exact I. rewrite sd_read_get. destruct (in_dec str_eq_dec x vars); [|contradiction]. destruct (dataset (h_sd f) x) eqn:D; [reflexivity|]. unfold tables, own_table. rewrite D. destruct (H x I) as [X|X]; [congruence|]. destruct (_ =? _), (dataset (h_vd f) x); congruence.
Qed.
Lemma handles_missing f vars x : hdf_name (h_name f) -> In x vars -> ~ in_file f x -> hdf4_handles f vars = Raises InvalidVariableError.
Proof.
  intros N I H. unfold hdf4_handles. apply ends_iff in N. rewrite N. cbn [negb]. match goal with |- (if ?b then _ else _) = _ => destruct b eqn:FB; [|reflexivity] end. exfalso. apply H.
  rewrite forallb_forall in FB. specialize (FB x I). rewrite vds_get in FB by exact I. rewrite sd_read_get in FB. destruct (in_dec str_eq_dec x vars); [|contradiction]. unfold in_file, tables, own_table in *. destruct (dataset (h_sd f) x); [left; discriminate|]. right. destruct (_ =? _), (dataset (h_vd f) x); congruence.
Qed.
Lemma handles_suffix f vars : ~ hdf_name (h_name f) -> hdf4_handles f vars = Raises OSError.
Proof. intros N. unfold hdf4_handles. destruct (ends_with (lit ".hdf") (h_name f)) eqn:EN; [exfalso; apply N, ends_iff; exact EN|reflexivity]. Qed.
Definition gather {V} (look : hfile SD VD -> option V) files : list V := flat_map (fun f => match look f with Some v => [v] | None => [] end) files.
Lemma gather_found {V} (look : hfile SD VD -> option V) files : found look files (gather look files).
Proof. induction files as [|f files IH]; [constructor|]. unfold gather. cbn [flat_map]. fold (gather look files). destruct (look f) eqn:L; cbn [app]; [apply found_one|apply found_skip]; auto. Qed.
Lemma found_gather {V} (look : hfile SD VD -> option V) files vs : found look files vs -> vs = gather look files.
Proof. induction 1 as [|f fs vs L F IH|f fs v vs L F IH]; [reflexivity| |]; unfold gather; cbn [flat_map]; rewrite L; fold (gather look fs); subst; reflexivity. Qed.
Definition joined {V} (old : option (list V)) (l : list V) : option (list V) := match old, l with None, [] => None | None, _ => Some l | Some m, _ => Some (m ++ l) end.
Lemma handles_from_ok files vars : forall sd vd s v, handles_from sd vd files vars = Ok (s, v) -> (forall f, In f files -> hdf_name (h_name f) /\ forall x, In x vars -> in_file f x) /\ forall x, In x vars ->
  dict_get s x = joined (dict_get sd x) (gather (fun f => dataset (h_sd f) x) files) /\ dict_get v x = joined (dict_get vd x) (gather (tables (count vars x =? 1) x) files).
Proof.
  induction files as [|f files IH]; intros sd vd s v E; cbn [handles_from] in E.
  - injection E as <- <-. split; [intros ? []|]. intros x I. cbn. destruct (dict_get sd x), (dict_get vd x); cbn [joined]; rewrite ?app_nil_r; auto.
  - destruct (hdf4_handles f vars) as [[s1 v1]|] eqn:R; [|discriminate]. cbn [bind fst snd] in E. destruct (handles_ok f vars s1 v1 R) as (NM & N1 & N2 & H & _). destruct (IH _ _ _ _ E) as [A B]. split.
    + intros g [<-|I]; [split; [exact NM|]; intros x I; apply (H x I)|apply A; exact I].
    + intros x I. destruct (H x I) as (H1 & H2 & _). destruct (B x I) as [B1 B2]. rewrite add_all_get, H1 in B1 by auto. rewrite add_all_get, H2 in B2 by auto. unfold gather. cbn [flat_map]. fold (gather (fun f => dataset (h_sd f) x) files). fold (gather (tables (count vars x =? 1) x) files). split.
      * rewrite B1. destruct (dataset (h_sd f) x); cbn [app]; [|reflexivity]. destruct (dict_get sd x); cbn [app joined]; [rewrite <- app_assoc|]; reflexivity.
      * rewrite B2. destruct (tables (count vars x =? 1) x f); cbn [app]; [|reflexivity]. destruct (dict_get vd x); cbn [app joined]; [rewrite <- app_assoc|]; reflexivity.
Qed.
Lemma handles_from_total files vars : forall sd vd, (forall f, In f files -> hdf_name (h_name f) /\ forall x, In x vars -> in_file f x) -> exists s v, handles_from sd vd files vars = Ok (s, v).
Proof.
  induction files as [|f files IH]; intros sd vd H; cbn [handles_from]; [eauto|]. destruct (H f (or_introl eq_refl)) as [N I]. destruct (handles_total f vars N I) as (s & v & ->). cbn [bind]. apply IH. intros g J. apply H. right. exact J.
Qed.
Lemma hdf4_iff files vars : (exists r, hdf4_read files vars = Ok r) <-> forall f, In f files -> hdf_name (h_name f) /\ forall x, In x vars -> in_file f x.
Proof. split; [intros ([s v] & E); apply (handles_from_ok _ _ _ _ _ _ E)|]. intros H. destruct (handles_from_total files vars [] [] H) as (s & v & E). exists (s, v). exact E. Qed.
Lemma hdf4_datasets files vars s v x vs : hdf4_read files vars = Ok (s, v) -> In x vars -> found (fun f => dataset (h_sd f) x) files vs -> stored s x vs.
Proof. intros E I F. apply found_gather in F. subst vs. destruct (handles_from_ok _ _ _ _ _ _ E) as [_ H]. destruct (H x I) as [H1 _]. unfold stored. rewrite H1. cbn [dict_get joined]. destruct (gather _ files); reflexivity. Qed.
Lemma hdf4_tables files vars s v x vs : hdf4_read files vars = Ok (s, v) -> asked_once x vars -> found (own_table x) files vs -> stored v x vs.
Proof.
  intros E I F. apply found_gather in F. subst vs. destruct (handles_from_ok _ _ _ _ _ _ E) as [_ H]. change (count vars x = 1) in I. destruct (H x) as [_ H2]; [apply (count_occ_In str_eq_dec); lia|]. unfold stored. rewrite H2, I. cbn [dict_get joined Nat.eqb]. change (tables true x) with (own_table (SD := SD) (VD := VD) x). destruct (gather _ files); reflexivity.
Qed.
Lemma hdf4_tables_again files vars s v x vs : hdf4_read files vars = Ok (s, v) -> In x vars -> ~ asked_once x vars -> found (fun f => dataset (h_vd f) x) files vs -> stored v x vs.
Proof.
  intros E I N F. apply found_gather in F. subst vs. destruct (handles_from_ok _ _ _ _ _ _ E) as [_ H]. change (~ count vars x = 1) in N. destruct (H x I) as [_ H2]. unfold stored. rewrite H2. destruct (Nat.eqb_spec (count vars x) 1); [contradiction|]. cbn [dict_get joined]. change (tables false x) with (fun f => dataset (V := VD) (h_vd (SD := SD) f) x). destruct (gather _ files); reflexivity.
Qed.
Lemma hdf4_unknown files vars f x : (forall f, In f files -> hdf_name (h_name f)) -> In f files -> In x vars -> ~ in_file f x -> hdf4_read files vars = Raises InvalidVariableError.
Proof.
  unfold hdf4_read. generalize (@nil (str * list SD)) as sd. generalize (@nil (str * list VD)) as vd. induction files as [|g files IH]; intros vd sd N I J H; [contradiction|]. cbn [handles_from].
  destruct (hdf4_handles g vars) as [sv|e] eqn:E; cbn [bind].
  - destruct I as [->|I]; [rewrite (handles_missing f vars x) in E; [discriminate|apply N; left; reflexivity|exact J|exact H]|]. apply IH; auto. intros h K. apply N. right. exact K.
  - unfold hdf4_handles in E. assert (NG := N g (or_introl eq_refl)). apply ends_iff in NG. rewrite NG in E. cbn [negb] in E. match type of E with (if ?b then _ else _) = _ => destruct b end; congruence.
Qed.
End Hdf.

(** ** HDF_SDS *)
Definition calm (o : sds_object) : Prop := o_sd o <> Live /\ o_sds o <> Live /\ o_lost o = 0 /\ (o_sds o = Ended -> o_sd o = Ended).
Lemma ask_calm {A} o (t : attempt A) : calm o -> calm (fst (ask o t)).
Proof. destruct o as [sd sds lost], t as [op se an]. unfold calm, ask, open_sds, close_sds. cbn. intros (A1 & A2 & A3 & A4). subst lost. destruct op, se, sd, sds; cbn; try congruence; repeat split; try congruence; auto. Qed.
Lemma ask_all_calm {A} ts : forall o, calm o -> calm (fst (ask_all (A := A) o ts)).
Proof. induction ts as [|t ts IH]; intros o C; [exact C|]. cbn [ask_all]. pose proof (ask_calm o t C) as C'. destruct (ask o t) as [o1 r]. specialize (IH o1 C'). destruct (ask_all o1 ts). exact IH. Qed.
Lemma calm_closed o : calm o -> open_files o = 0.
Proof. destruct o as [[] sds lost]; unfold calm, open_files; cbn; intros (A & B & C & D); try congruence; lia. Qed.
Definition good {A} (t : attempt A) : option A := if t_opens t && t_selects t then t_answer t else None.
Lemma ask_good {A} o (t : attempt A) : calm o -> snd (ask o t) = good t.
Proof. destruct o as [sd sds lost], t as [op se an]. unfold ask, open_sds, close_sds, good. cbn. intros _. destruct op, se, sd, sds; reflexivity. Qed.
Lemma ask_all_good {A} ts : forall o, calm o -> snd (ask_all (A := A) o ts) = map good ts.
Proof. induction ts as [|t ts IH]; intros o C; [reflexivity|]. cbn [ask_all]. pose proof (ask_calm o t C) as C'. pose proof (ask_good o t C) as G. destruct (ask o t) as [o1 r]. specialize (IH o1 C'). destruct (ask_all o1 ts). cbn in *. congruence. Qed.
Lemma fresh_calm : calm new_object. Proof. repeat split; discriminate. Qed.

(** ** LazyData *)
Lemma mapping_iff k r : dict_get static_mappings k = Some r <-> readable k r.
Proof.
  split.
  - unfold static_mappings. cbn [dict_get]. repeat (destruct (str_eq_dec _ k) as [<-|]; [intros [= <-]; constructor|]). discriminate.
  - intros []; vm_compute; reflexivity.
Qed.
Lemma reader_iff kinds r : choose_reader false kinds = Ok r <-> exists k, kinds <> [] /\ (forall k', In k' kinds -> k' = k) /\ readable k r.
Proof.
  unfold choose_reader. destruct kinds as [|k kinds]; [split; [discriminate|intros (k & N & _); congruence]|]. split.
  - destruct (dict_get static_mappings k) as [r'|] eqn:G; [|discriminate]. destruct (forallb _ _) eqn:F; [|discriminate]. intros [= <-]. exists k. split; [discriminate|]. split; [|apply mapping_iff; exact G]. rewrite forallb_forall in F. intros k' I. apply str_eqb_eq. apply F. exact I.
  - intros (k0 & _ & A & RR). assert (k = k0) by (apply A; left; reflexivity). subst k0. rewrite (proj2 (mapping_iff k r) RR). replace (forallb _ _) with true; [reflexivity|]. symmetry. apply forallb_forall. intros k' I. rewrite (A k' I). apply str_eqb_refl.
Qed.
Lemma reader_error kinds e : choose_reader false kinds = Raises e -> (kinds = [] /\ e = IndexError) \/ (kinds <> [] /\ e = InvalidDataTypeError).
Proof. unfold choose_reader. destruct kinds as [|k kinds]; [intros [= <-]; auto|]. intros E. right. split; [discriminate|]. destruct (dict_get static_mappings k); [|congruence]. destruct (forallb _ _); congruence. Qed.
