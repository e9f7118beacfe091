From Verif Require Import Base PyStr QBase FileListModel FileListProofs DateModel UtilModel UtilSpec UtilProofs ReadModel ReadSpec ReadProofs WriteModel WriteSpec.
From Coq Require Import Lqa.
Open Scope Q_scope. Notation length := List.length.

(** ** Names *)
Lemma nonempty_some : forall o n, nonempty o = Some n <-> has_name o n.
Proof.
  intros [[|c s]|] n; cbn; unfold has_name; split; intros H; try discriminate H.
  - destruct H as [H N]. injection H as <-. destruct N. reflexivity.
  - injection H as <-. split; [reflexivity|discriminate].
  - apply H.
  - destruct H as [H N]. discriminate H.
Qed.
Lemma nonempty_none : forall o, nonempty o = None <-> no_name o.
Proof. intros [[|c s]|]; cbn; unfold no_name; split; intros H; auto; try discriminate H. destruct H; discriminate. Qed.
Lemma coord_name_ok : forall v n, variable_name v true = Some n <-> coord_name v n.
Proof.
  intros v n. unfold variable_name, coord_name. cbv zeta. rewrite <- !nonempty_some, <- nonempty_none.
  destruct (nonempty (w_name v)), (nonempty (w_standard_name v)); split; try tauto; try (intros [H|[H1 H2]]; congruence); intros H; auto.
Qed.
Lemma data_name_ok : forall v n, variable_name v false = Some n <-> data_name v n.
Proof.
  intros v n. unfold variable_name, data_name. cbv zeta. rewrite <- !nonempty_some, <- nonempty_none.
  destruct (nonempty (w_name v)), (nonempty (w_standard_name v)); split; try tauto; try (intros [H|[H1 H2]]; congruence); intros H; auto.
Qed.

(** ** Packing *)
Lemma Qfloor_inject : forall z, Qfloor (inject_Z z) = z.
Proof. intros z. unfold Qfloor, inject_Z. cbn. apply Z.div_1_r. Qed.
Lemma Qltb_spec' : forall a b, Qltb a b = true <-> a < b.
Proof. intros a b. destruct (Qltb_spec a b); split; auto; try discriminate; intros; contradiction. Qed.
Lemma around_whole : forall q z, q == inject_Z z -> around q = z.
Proof.
  intros q z E. unfold around. cbv zeta. rewrite (Qfloor_comp _ _ E), Qfloor_inject. assert (Z0 : q - inject_Z z == 0) by (rewrite E; ring).
  destruct (Qltb_spec (q - inject_Z z) (1 # 2)) as [L|L]; [reflexivity|]. exfalso. apply L. rewrite Z0. reflexivity.
Qed.
Lemma types_int : forall d t, dict_get types d = Some t -> is_int t = false <-> d = lit "float32" \/ d = lit "float64".
Proof.
  intros d t. unfold types. cbn [dict_get]. repeat (destruct (str_eq_dec _ _) as [<-|?]; [intros [= <-]; cbn; split; [first [discriminate|auto]|intros [H|H]; first [discriminate H|reflexivity]]|]). discriminate.
Qed.
Lemma types_in : forall d t, dict_get types d = Some t -> In (d, t) types.
Proof.
  assert (G : forall {V} (l : list (str * V)) d t, dict_get l d = Some t -> In (d, t) l).
  { induction l as [|[k v] l IH]; cbn; [discriminate|]. intros d t. destruct (str_eq_dec k d) as [->|N]; [intros [= <-]; auto|intros H; right; auto]. }
  apply G.
Qed.
Section Fill.
Variable default_fill : dtype -> Q.
Notation put_ := (create_variable default_fill).
Definition is_stored (s : stored) (v : wvar) : Prop := exists t, dict_get types (w_dtype v) = Some t /\ s = mkStored t (pack default_fill t v) (fill_of default_fill t v) (w_attrs v).
Lemma combine_length_ok : forall v, array_ok (w_data v) -> length (combine (an_data (w_data v)) (getmaskarray (w_data v))) = length (an_data (w_data v)).
Proof. intros v OK. rewrite combine_length, getmaskarray_length by auto. lia. Qed.
Lemma pack_length : forall t v, array_ok (w_data v) -> length (pack default_fill t v) = length (an_data (w_data v)).
Proof. intros. unfold pack. rewrite map_length. apply combine_length_ok; auto. Qed.
Lemma pack_element : forall t v i x m, element (w_data v) i x m ->
  nth_error (pack default_fill t v) i = Some (if m then Some (fill_of default_fill t v) else option_map (pack_one t v) x).
Proof.
  intros t v i x m [E1 E2]. unfold pack. apply map_nth_error with (f := fun c : fval * bool => if snd c then Some (fill_of default_fill t v) else option_map (pack_one t v) (fst c)) (d := (x, m)).
  apply combine_nth_error; auto.
Qed.
Lemma pack_one_ok : forall t v x, dict_get types (w_dtype v) = Some t -> exact v -> In (Some x) (an_data (w_data v)) -> pack_one t v x == (x - offset_of v) / scale_of v.
Proof.
  intros t v x T (_ & S & K) I. unfold pack_one. change (attr_num (at_offset (w_attrs v)) 0) with (offset_of v). change (attr_num (at_scale (w_attrs v)) 1) with (scale_of v). cbv zeta.
  assert (TI := types_int _ _ T). destruct (is_int t) eqn:E; [|reflexivity]. destruct K as [K|(K1 & K2 & K3)]; [apply TI in K; discriminate|].
  destruct (K3 x I) as (z & Z). assert (Q1 : (x - offset_of v) / scale_of v == inject_Z z) by (rewrite K1, K2, Z; field). rewrite (around_whole _ z Q1). symmetry. exact Q1.
Qed.
Lemma stored_holds : forall s v, is_stored s v -> exact v -> holds s v.
Proof.
  intros s v (t & T & ->) EX. split; [exact (types_in _ _ T)|]. split; [cbn; apply pack_length, EX|]. split; [reflexivity|]. intros i x m E. cbn [s_raw s_fill]. eexists. split; [apply pack_element, E|]. split; [intros ->; reflexivity|]. intros ->.
  destruct x as [x|]; cbn [option_map same_value]; [|exact I]. assert (IN : In (Some x) (an_data (w_data v))) by (eapply nth_error_In; apply E). rewrite (pack_one_ok _ _ _ T EX IN). destruct EX as (_ & S & _). field. exact S.
Qed.

(** ** Writing *)
Definition put (f : ncfile) (v : wvar) (n : str) : res ncfile :=
  match dict_get types (w_dtype v) with
  | None => Raises KeyError
  | Some t => match dict_get (nf_vars f) n with
              | Some _ => Ok f
              | None => bind (assign (nf_obs f) (pack default_fill t v)) (fun raw => Ok (mkFile (nf_obs f) (nf_vars f ++ [(n, mkStored t raw (fill_of default_fill t v) (w_attrs v))])))
              end
  end.
Lemma create_put : forall f v p n, variable_name v p = Some n -> put_ f v p = put f v n.
Proof. intros f v p n H. unfold create_variable, put. rewrite H. reflexivity. Qed.
Fixpoint puts (f : ncfile) (l : list (wvar * str)) : res ncfile := match l with [] => Ok f | (v, n) :: l => bind (put f v n) (fun f => puts f l) end.
Lemma create_puts : forall cs ds l, named cs ds l -> forall f, bind (create_all default_fill f cs true) (fun f => create_all default_fill f ds false) = puts f l.
Proof.
  intros cs ds l N. induction N as [|c cs ds n l C N IH|d ds n l D N IH]; intros f; cbn [create_all bind puts].
  - reflexivity.
  - apply coord_name_ok in C. rewrite (create_put _ _ _ _ C). destruct (put f c n); cbn [bind]; [apply IH|reflexivity].
  - apply data_name_ok in D. rewrite (create_put _ _ _ _ D). destruct (put f d n) as [g|]; cbn [bind]; [|reflexivity]. rewrite <- IH. reflexivity.
Qed.
Lemma save_puts : forall c cs ds l, ds <> [] -> named (c :: cs) ds l -> save_data default_fill (c :: cs) ds = puts (mkFile (length (an_data (w_data c))) []) l.
Proof. intros c cs ds l D N. rewrite <- (create_puts _ _ _ N). unfold save_data, write_coordinate_list. destruct ds; [contradiction|reflexivity]. Qed.
Lemma put_ok : forall f v n g, put f v n = Ok g -> array_ok (w_data v) -> length (an_data (w_data v)) = nf_obs f ->
  (g = f /\ In n (map fst (nf_vars f))) \/ (~ In n (map fst (nf_vars f)) /\ exists s, is_stored s v /\ g = mkFile (nf_obs f) (nf_vars f ++ [(n, s)])).
Proof.
  intros f v n g. unfold put. destruct (dict_get types (w_dtype v)) as [t|] eqn:T; [|discriminate]. destruct (dict_get (nf_vars f) n) eqn:D.
  - intros [= <-] _ _. left. split; [reflexivity|]. apply dict_get_in. congruence.
  - intros H OK L. right. split; [intros I; apply dict_get_in in I; contradiction|]. unfold assign in H. rewrite pack_length, L, Nat.eqb_refl in H by auto. cbn [bind] in H. injection H as <-. eexists. split; [exists t; split; [exact T|reflexivity]|reflexivity].
Qed.
Lemma puts_ok : forall l f g, puts f l = Ok g -> NoDup (map fst (nf_vars f)) -> (forall v n, In (v, n) l -> array_ok (w_data v) /\ length (an_data (w_data v)) = nf_obs f) ->
  nf_obs g = nf_obs f /\ NoDup (map fst (nf_vars g)) /\ (exists rest, nf_vars g = nf_vars f ++ rest) /\
  (forall n s, In (n, s) (nf_vars g) -> In (n, s) (nf_vars f) \/ (~ In n (map fst (nf_vars f)) /\ exists pre v post, l = pre ++ (v, n) :: post /\ ~ In n (map snd pre) /\ is_stored s v)) /\
  (forall v n, In (v, n) l -> In n (map fst (nf_vars g))).
Proof.
  induction l as [|[v n] l IH]; intros f g; cbn [puts].
  - intros [= <-] ND _. repeat split; auto; [exists []; rewrite app_nil_r; reflexivity|intros ? ? []].
  - destruct (put f v n) as [h|] eqn:P; [|discriminate]. cbn [bind]. intros G ND L. destruct (L v n (or_introl eq_refl)) as [L1 L2].
    assert (L' : forall v n, In (v, n) l -> array_ok (w_data v) /\ length (an_data (w_data v)) = nf_obs f) by (intros; eapply L; right; eauto).
    destruct (put_ok _ _ _ _ P L1 L2) as [[-> I]|(N & s & S & ->)].
    + destruct (IH f g G ND L') as (A & B & (r & C) & D & E). split; [exact A|]. split; [exact B|]. split; [exists r; exact C|]. split.
      * intros n' s' I'. destruct (D n' s' I') as [H|(H1 & pre & v' & post & H2 & H3 & H4)]; [auto|]. right. split; [exact H1|]. exists ((v, n) :: pre), v', post. rewrite H2. split; [reflexivity|]. split; [|exact H4]. cbn. intros [->|K]; contradiction.
      * intros v' n' [[= <- <-]|I']; [|eauto]. rewrite C, map_app. apply in_or_app. left. exact I.
    + set (h := mkFile (nf_obs f) (nf_vars f ++ [(n, s)])) in *. assert (NDh : NoDup (map fst (nf_vars h))) by (cbn; rewrite map_app; apply NoDup_snoc; auto).
      destruct (IH h g G NDh L') as (A & B & (r & C) & D & E). split; [exact A|]. split; [exact B|]. split; [exists ((n, s) :: r); rewrite C; cbn; rewrite <- app_assoc; reflexivity|]. split.
      * intros n' s' I'. destruct (D n' s' I') as [H|(H1 & pre & v' & post & H2 & H3 & H4)].
        -- cbn in H. apply in_app_or in H. destruct H as [H|[[= <- <-]|[]]]; [auto|]. right. split; [exact N|]. exists [], v, l. split; [reflexivity|]. split; [intros []|exact S].
        -- cbn in H1. rewrite map_app, in_app_iff in H1. right. split; [tauto|]. exists ((v, n) :: pre), v', post. rewrite H2. split; [reflexivity|]. split; [|exact H4]. cbn in *. intros [->|K]; [apply H1; right; left; reflexivity|contradiction].
      * intros v' n' [[= <- <-]|I']; [|eauto]. rewrite C. cbn. rewrite !map_app, !in_app_iff. cbn. auto.
Qed.
(** with distinct names: one variable each, in order *)
Definition fits (p : wvar * str) (q : str * stored) : Prop := fst q = snd p /\ is_stored (snd q) (fst p).
Lemma puts_distinct : forall l f g, puts f l = Ok g -> NoDup (map fst (nf_vars f) ++ map snd l) -> (forall v n, In (v, n) l -> array_ok (w_data v) /\ length (an_data (w_data v)) = nf_obs f) ->
  exists rest, nf_vars g = nf_vars f ++ rest /\ Forall2 fits l rest.
Proof.
  induction l as [|[v n] l IH]; intros f g; cbn [puts].
  - intros [= <-] _ _. exists []. rewrite app_nil_r. split; [reflexivity|constructor].
  - destruct (put f v n) as [h|] eqn:P; [|discriminate]. cbn [bind]. intros G ND L. destruct (L v n (or_introl eq_refl)) as [L1 L2]. cbn [map snd] in ND.
    assert (NI : ~ In n (map fst (nf_vars f))) by (apply NoDup_remove_2 in ND; intros I; apply ND, in_or_app; auto).
    destruct (put_ok _ _ _ _ P L1 L2) as [[_ I]|(_ & s & S & ->)]; [contradiction|].
    destruct (IH _ g G) as (rest & R & F); [cbn; rewrite map_app, <- app_assoc; exact ND|intros; eapply L; right; eauto|].
    exists ((n, s) :: rest). cbn in R. rewrite <- app_assoc in R. split; [exact R|]. constructor; [split; [reflexivity|exact S]|exact F].
Qed.
Lemma puts_succeeds : forall l f, (forall v n, In (v, n) l -> array_ok (w_data v) /\ length (an_data (w_data v)) = nf_obs f /\ known_type v) -> exists g, puts f l = Ok g.
Proof.
  induction l as [|[v n] l IH]; intros f L; cbn [puts]; [eauto|]. destruct (L v n (or_introl eq_refl)) as (L1 & L2 & L3). unfold put.
  destruct (dict_get types (w_dtype v)) as [t|] eqn:T; [|apply dict_get_in in L3; contradiction]. destruct (dict_get (nf_vars f) n).
  - cbn [bind]. apply IH. intros v' n' I. apply (L v' n'). right. exact I.
  - unfold assign. rewrite pack_length, L2, Nat.eqb_refl by auto. cbn [bind]. apply IH. intros v' n' I. apply (L v' n'). right. exact I.
Qed.
Lemma named_in : forall cs ds l, named cs ds l -> (forall v n, In (v, n) l -> In v cs \/ In v ds) /\ (forall v, In v cs -> exists n, coord_name v n /\ In (v, n) l) /\ (forall v, In v ds -> exists n, data_name v n /\ In (v, n) l).
Proof.
  intros cs ds l N. induction N as [|c cs ds n l C N (A1 & A2 & A3)|d ds n l D N (A1 & A2 & A3)].
  - split; [intros ? ? []|]. split; intros ? [].
  - split; [|split].
    + intros v m [[= <- <-]|I]; [left; left; auto|]. destruct (A1 _ _ I); [left; right|right]; auto.
    + intros v [<-|I]; [exists n; split; [exact C|left; auto]|]. destruct (A2 v I) as (m & M1 & M2). exists m. split; [exact M1|right; exact M2].
    + intros v I. destruct (A3 v I) as (m & M1 & M2). exists m. split; [exact M1|right; exact M2].
  - split; [|split].
    + intros v m [[= <- <-]|I]; [right; left; auto|]. destruct (A1 _ _ I) as [[]|]; right; right; auto.
    + intros v [].
    + intros v [<-|I]; [exists n; split; [exact D|left; auto]|]. destruct (A3 v I) as (m & M1 & M2). exists m. split; [exact M1|right; exact M2].
Qed.

(** ** C44 *)
Lemma sized : forall c cs ds l, named (c :: cs) ds l -> (forall v, In v (c :: cs) \/ In v ds -> array_ok (w_data v)) -> same_size (c :: cs) ds ->
  forall v n, In (v, n) l -> array_ok (w_data v) /\ length (an_data (w_data v)) = length (an_data (w_data c)).
Proof. intros c cs ds l N OK S v n I. apply (proj1 (named_in _ _ _ N)) in I. split; [apply OK, I|apply (S c v); auto]. Qed.
Lemma save_first : forall cs ds l f, named cs ds l -> (forall v, In v cs \/ In v ds -> exact v) -> same_size cs ds -> save_data default_fill cs ds = Ok f ->
  NoDup (map fst (nf_vars f)) /\
  (forall n s, In (n, s) (nf_vars f) -> exists pre v post, l = pre ++ (v, n) :: post /\ ~ In n (map snd pre) /\ holds s v) /\
  (forall v n, In (v, n) l -> exists s, In (n, s) (nf_vars f)).
Proof.
  intros cs ds l f N EX S H. destruct cs as [|c cs]; [destruct ds; discriminate H|]. destruct ds as [|d ds]; [discriminate H|].
  assert (NN : forall (x : wvar) y, x :: y <> []) by discriminate. rewrite (save_puts _ _ _ _ (NN _ _) N) in H. assert (SZ := sized _ _ _ _ N (fun v I => proj1 (EX v I)) S).
  destruct (puts_ok _ _ _ H (NoDup_nil _) SZ) as (_ & A & _ & B & C). split; [exact A|]. split.
  - intros n s I. destruct (B n s I) as [[]|(_ & pre & v & post & E & NI & ST)]. exists pre, v, post. split; [exact E|]. split; [exact NI|]. apply stored_holds; [exact ST|]. apply EX, (proj1 (named_in _ _ _ N) v n). rewrite E. apply in_or_app. right. left. reflexivity.
  - intros v n I. specialize (C v n I). apply in_map_iff in C. destruct C as ([n' s] & <- & C). exists s. exact C.
Qed.
Lemma nodup_split : forall (l pre post : list (wvar * str)) v n v', NoDup (map snd l) -> l = pre ++ (v, n) :: post -> In (v', n) l -> v' = v.
Proof.
  intros l pre post v n v' ND E I. rewrite E in ND, I. rewrite map_app in ND. cbn in ND. apply NoDup_remove_2 in ND. apply in_app_or in I. destruct I as [I|[[= <-]|I]]; [|reflexivity|]; exfalso; apply ND, in_or_app; [left|right]; apply in_map_iff; exists (v', n); auto.
Qed.
Lemma save_distinct : forall cs ds l f, named cs ds l -> NoDup (map snd l) -> (forall v, In v cs \/ In v ds -> exact v) -> same_size cs ds -> save_data default_fill cs ds = Ok f ->
  length (nf_vars f) = length l /\ forall v n, In (v, n) l -> exists s, In (n, s) (nf_vars f) /\ holds s v.
Proof.
  intros cs ds l f N ND EX S H. destruct (save_first _ _ _ _ N EX S H) as (A & B & C). split.
  - assert (I1 : incl (map fst (nf_vars f)) (map snd l)). { intros n I. apply in_map_iff in I. destruct I as ([n' s] & <- & I). destruct (B _ _ I) as (pre & v & post & -> & _). rewrite map_app. apply in_or_app. right. left. reflexivity. }
    assert (I2 : incl (map snd l) (map fst (nf_vars f))). { intros n I. apply in_map_iff in I. destruct I as ([v n'] & <- & I). destruct (C _ _ I) as (s & K). apply in_map_iff. exists (n', s). auto. }
    assert (L1 := NoDup_incl_length A I1). assert (L2 := NoDup_incl_length ND I2). rewrite !map_length in L1, L2. lia.
  - intros v n I. destruct (C v n I) as (s & K). exists s. split; [exact K|]. destruct (B n s K) as (pre & v' & post & E & _ & HO). rewrite (nodup_split _ _ _ _ _ v ND E I). exact HO.
Qed.
Lemma save_succeeds : forall cs ds l, named cs ds l -> cs <> [] -> ds <> [] -> (forall v, In v cs \/ In v ds -> array_ok (w_data v) /\ known_type v) -> same_size cs ds -> exists f, save_data default_fill cs ds = Ok f.
Proof.
  intros cs ds l N C D K S. destruct cs as [|c cs]; [contradiction|]. rewrite (save_puts _ _ _ _ D N). apply puts_succeeds. intros v n I. assert (I' := proj1 (named_in _ _ _ N) v n I).
  split; [apply K, I'|]. split; [apply (S c v); auto|apply K, I'].
Qed.

(** data or coordinates of another size are refused, but for a single value *)
Lemma puts_sizes : forall l f g, puts f l = Ok g -> NoDup (map fst (nf_vars f) ++ map snd l) -> forall v n, In (v, n) l -> array_ok (w_data v) -> length (an_data (w_data v)) = nf_obs f \/ length (an_data (w_data v)) = 1%nat.
Proof.
  induction l as [|[v n] l IH]; intros f g; cbn [puts]; [intros _ _ v n []|]. destruct (put f v n) as [h|] eqn:P; [|discriminate]. cbn [bind]. intros G ND v' n' I OK. cbn [map snd] in ND.
  assert (NI : ~ In n (map fst (nf_vars f))) by (apply NoDup_remove_2 in ND; intros J; apply ND, in_or_app; auto). unfold put in P. destruct (dict_get types (w_dtype v)) as [t|]; [|discriminate]. destruct (dict_get (nf_vars f) n) eqn:D; [exfalso; apply NI, dict_get_in; congruence|].
  destruct (assign (nf_obs f) (pack default_fill t v)) as [raw|] eqn:A; [|discriminate]. cbn [bind] in P. injection P as <-. destruct I as [[= <- <-]|I].
  - unfold assign in A. rewrite <- (pack_length t v OK). destruct (length (pack default_fill t v) =? nf_obs f)%nat eqn:E; [apply Nat.eqb_eq in E; auto|]. destruct (pack default_fill t v) as [|x [|y r]]; try discriminate. auto.
  - eapply (IH _ g G); eauto. cbn [nf_vars]. rewrite map_app, <- app_assoc. exact ND.
Qed.
Lemma save_wrong_size : forall cs ds l c v, named cs ds l -> NoDup (map snd l) -> hd_error cs = Some c -> In v cs \/ In v ds -> array_ok (w_data v) ->
  length (an_data (w_data v)) <> length (an_data (w_data c)) -> length (an_data (w_data v)) <> 1%nat -> exists e, save_data default_fill cs ds = Raises e.
Proof.
  intros cs ds l c v N ND HC I OK L1 L2. destruct cs as [|c0 cs]; [discriminate|]. injection HC as ->. destruct (save_data default_fill (c :: cs) ds) as [f|e] eqn:S; [|eauto]. exfalso. destruct ds as [|d ds]; [discriminate|].
  assert (NN : d :: ds <> []) by discriminate. rewrite (save_puts _ _ _ _ NN N) in S. assert (J : exists n, In (v, n) l) by (destruct (named_in _ _ _ N) as (_ & A & B); destruct I as [I|I]; [destruct (A v I) as (n & _ & K)|destruct (B v I) as (n & _ & K)]; eauto). destruct J as (n & J).
  destruct (puts_sizes l _ f S ND v n J OK) as [E|E]; cbn in E; congruence.
Qed.

(** ** C58 *)
Lemma plain_element : forall (l : list fval) i x, nth_error l i = Some x -> element (Plain l) i x false.
Proof.
  intros l i x H. split; [exact H|]. cbn. revert i H. induction l as [|y l IH]; intros [|i]; cbn; try discriminate; [reflexivity|apply IH].
Qed.
Lemma read_back : forall s v, is_stored s v -> exact v -> within v -> marks_missing default_fill v -> exists out, nc_get_data (open_variable s) = Ok out /\ same_array (w_data v) out.
Proof.
  intros s v (t & T & ->) EX (W1 & W2 & W3) MM. set (var := open_variable _).
  assert (OKR : array_ok (nv_read var false)) by exact I.
  destruct (nc_get_data var) as [out|e] eqn:R.
  2:{ exfalso. destruct (proj1 (nc_error var) (ex_intro _ e R)) as [IT ON]. cbn in IT, ON. destruct EX as (_ & _ & [K|(K1 & K2 & _)]); [apply (types_int _ _ T) in K; congruence|].
      unfold scale_of, offset_of in K1, K2. destruct ON as [(a & A1 & A2 & A3 & A4)|(a & A1 & A2 & A3 & A4)]; rewrite A1 in *; [apply A4, K1|apply A4, K2]. }
  exists out. split; [reflexivity|]. assert (RD := nc_reads var out OKR). cbn [nv_type nv_valid_max nv_valid_min nv_valid_range nv_scale nv_offset] in RD. unfold var in RD at 1 2 3 4. cbn in RD.
  specialize (RD (fun q H => W1 t q (types_in _ _ T) H) W2 R). destruct RD as [RL RE]. cbn in RL. split; [rewrite RL; symmetry; apply pack_length, EX|].
  intros i x m E. assert (P := pack_element t v i x m E). destruct (RE i _ false (plain_element _ _ _ P)) as (y & m' & Y & M & V).
  exists y. assert (MI : m' = m).
  { destruct m.
    - apply M. right. destruct MM as [NM|MM]; [specialize (NM i x true E); discriminate|]. apply (MM t (types_in _ _ T)).
    - destruct m'; [exfalso|reflexivity]. destruct (proj1 M eq_refl) as [H|H]; [discriminate|]. destruct x as [x|]; cbn [option_map] in H.
      + assert (IN : In (Some x) (an_data (w_data v))) by (eapply nth_error_In; apply E). apply (W3 x IN). assert (PE := pack_one_ok t v x T EX IN). unfold invalid_raw.
        revert H. unfold not_valid, given, above, below, outside. intros [(a & A & b & B & q & [= <-] & Q1)|[(a & A & b & B & q & [= <-] & Q1)|(a & A & q & [= <-] & Q1)]].
        * left. exists a. split; [exact A|]. exists b. split; [exact B|]. eexists. split; [reflexivity|]. rewrite <- PE. exact Q1.
        * right. left. exists a. split; [exact A|]. exists b. split; [exact B|]. eexists. split; [reflexivity|]. rewrite <- PE. exact Q1.
        * right. right. exists a. split; [exact A|]. eexists. split; [reflexivity|]. rewrite <- PE. exact Q1.
      + destruct H as [(a & _ & b & _ & q & [=] & _)|[(a & _ & b & _ & q & [=] & _)|(a & _ & q & [=] & _)]]. }
  subst m'. split; [exact Y|]. intros ->. specialize (V eq_refl). destruct x as [x|]; cbn [option_map] in V.
  - destruct y as [y|]; cbn [same_value] in *; [|contradiction]. rewrite V. assert (IN : In (Some x) (an_data (w_data v))) by (eapply nth_error_In; apply E). rewrite (pack_one_ok t v x T EX IN). change (num (at_scale (w_attrs v)) 1) with (scale_of v). change (num (at_offset (w_attrs v)) 0) with (offset_of v). destruct EX as (_ & S & _). field. exact S.
  - exact V.
Qed.
Definition same_variable (p : wvar * str) (q : str * varr) : Prop := fst q = snd p /\ same_array (w_data (fst p)) (snd q).
Lemma read_all : forall l rest, Forall2 fits l rest -> (forall v n, In (v, n) l -> good default_fill v) ->
  exists out, map_res (fun p : str * stored => bind (nc_get_data (open_variable (snd p))) (fun d => Ok (fst p, d))) rest = Ok out /\ Forall2 same_variable l out.
Proof.
  intros l rest F. induction F as [|[v n] [n' s] l rest [E S] F IH]; intros G; cbn [map_res]; [eauto|]. cbn in E, S. subst n'. destruct (G v n (or_introl eq_refl)) as (G1 & G2 & G3).
  destruct (read_back _ _ S G1 G2 G3) as (d & D & SD). cbn [snd fst]. rewrite D. cbn [bind]. destruct IH as (out & O & FO); [intros; eapply G; right; eauto|]. rewrite O. cbn [bind]. eexists. split; [reflexivity|]. constructor; [split; [reflexivity|exact SD]|exact FO].
Qed.
Lemma is_axis_spec : forall n, is_axis n = true <-> In n known_axes.
Proof. intros n. unfold is_axis. rewrite existsb_exists. split; [intros (m & I & E); apply str_eqb_eq in E; subst; auto|intros I; exists n; split; [exact I|apply str_eqb_eq; reflexivity]]. Qed.
Lemma Forall2_split : forall {A B} (R : A -> B -> Prop) l1 l2 m, Forall2 R (l1 ++ l2) m -> exists m1 m2, m = m1 ++ m2 /\ Forall2 R l1 m1 /\ Forall2 R l2 m2.
Proof. intros A B R l1 l2 m H. apply Forall2_app_inv_l in H. destruct H as (m1 & m2 & H1 & H2 & ->). eauto. Qed.
Lemma filter_axis : forall l rest, Forall2 fits l rest -> (forall v n, In (v, n) l -> In n known_axes) -> filter (fun p : str * stored => is_axis (fst p)) rest = rest.
Proof. intros l rest F. induction F as [|[v n] [n' s] l rest [E S] F IH]; intros H; cbn [filter fst]; [reflexivity|]. cbn in E. subst n'. rewrite (proj2 (is_axis_spec n)) by (apply (H v); left; auto). rewrite IH by (intros; eapply H; right; eauto). reflexivity. Qed.
Lemma filter_no_axis : forall l rest, Forall2 fits l rest -> (forall v n, In (v, n) l -> ~ In n known_axes) -> filter (fun p : str * stored => is_axis (fst p)) rest = [].
Proof. intros l rest F. induction F as [|[v n] [n' s] l rest [E S] F IH]; intros H; cbn [filter fst]; [reflexivity|]. cbn in E. subst n'. destruct (is_axis n) eqn:A; [exfalso; apply (H v n); [left; auto|apply is_axis_spec, A]|]. apply IH. intros; eapply H; right; eauto. Qed.
Lemma named_split : forall cs ds l, named cs ds l -> exists l1 l2, l = l1 ++ l2 /\ map fst l1 = cs /\ map fst l2 = ds /\ (forall v n, In (v, n) l1 -> coord_name v n) /\ (forall v n, In (v, n) l2 -> data_name v n).
Proof.
  intros cs ds l N. induction N as [|c cs ds n l C N (l1 & l2 & -> & M1 & M2 & K1 & K2)|d ds n l D N (l1 & l2 & -> & M1 & M2 & K1 & K2)].
  - exists [], []. repeat split; auto; intros ? ? [].
  - exists ((c, n) :: l1), l2. split; [reflexivity|]. split; [cbn; congruence|]. split; [exact M2|]. split; [intros v m [[= <- <-]|I]; auto|exact K2].
  - destruct l1; [|discriminate]. exists [], ((d, n) :: l2). split; [reflexivity|]. split; [reflexivity|]. split; [cbn in *; congruence|]. split; [intros ? ? []|]. intros v m [[= <- <-]|I]; auto.
Qed.
Lemma dict_get_nodup : forall {V} (l : list (str * V)) k v, NoDup (map fst l) -> In (k, v) l -> dict_get l k = Some v.
Proof.
  induction l as [|[k' v'] l IH]; intros k v ND I; [destruct I|]. cbn in *. apply NoDup_cons_iff in ND. destruct ND as [N ND]. destruct I as [[= -> ->]|I]; [destruct (str_eq_dec k k); congruence|].
  destruct (str_eq_dec k' k) as [->|NE]; [|auto]. destruct N. apply in_map_iff. exists (k, v). auto.
Qed.
Lemma same_fst : forall l out, Forall2 same_variable l out -> map fst out = map snd l.
Proof. intros l out F. induction F as [|p q l out [E _] F IH]; cbn; congruence. Qed.
Lemma round_trip : forall cs ds l f, named cs ds l -> NoDup (map snd l) -> (forall v, In v cs \/ In v ds -> good default_fill v) -> same_size cs ds -> save_data default_fill cs ds = Ok f ->
  (forall c n, In c cs -> coord_name c n -> In n known_axes) -> (forall d n, In d ds -> data_name d n -> ~ In n known_axes) ->
  forall d n, In d ds -> data_name d n -> exists coords out, cis_read f n = Ok (coords, out) /\ Forall2 (fun c p => coord_name c (fst p) /\ same_array (w_data c) (snd p)) cs coords /\ same_array (w_data d) out.
Proof.
  intros cs ds l f N ND G S H AX NAX d n ID DN. destruct cs as [|c cs]; [destruct ds; discriminate H|]. destruct ds as [|d0 ds]; [discriminate H|].
  assert (NN : forall (x : wvar) y, x :: y <> []) by discriminate. rewrite (save_puts _ _ _ _ (NN _ _) N) in H. assert (SZ := sized _ _ _ _ N (fun v I => proj1 (proj1 (G v I))) S).
  destruct (puts_distinct _ _ _ H ND SZ) as (rest & R & F). cbn in R.
  destruct (named_split _ _ _ N) as (l1 & l2 & -> & M1 & M2 & K1 & K2). destruct (Forall2_split _ _ _ _ F) as (r1 & r2 & -> & F1 & F2).
  assert (I1 : forall v m, In (v, m) l1 -> In v (c :: cs)) by (intros v m I; rewrite <- M1; apply in_map_iff; exists (v, m); auto).
  assert (I2 : forall v m, In (v, m) l2 -> In v (d0 :: ds)) by (intros v m I; rewrite <- M2; apply in_map_iff; exists (v, m); auto).
  assert (J : exists s, In (n, s) r2 /\ is_stored s d).
  { destruct (proj2 (proj2 (named_in _ _ _ N)) d ID) as (n' & DN' & IL). assert (n' = n). { apply data_name_ok in DN, DN'. congruence. } subst n'.
    assert (I2' : In d (map fst l2)) by (rewrite M2; exact ID). apply in_map_iff in I2'. destruct I2' as ([d' n'] & E & I'). cbn in E. subst d'. assert (n' = n). { apply K2 in I'. apply data_name_ok in DN, I'. congruence. } subst n'.
    clear -F2 I'. induction F2 as [|[v m] [m' s] l2 r2 [E S] F IH]; [destruct I'|]. cbn in E, S. subst m'. destruct I' as [[= -> ->]|I']; [exists s; split; [left; auto|exact S]|]. destruct (IH I') as (s' & A & B). exists s'. split; [right; exact A|exact B]. }
  destruct J as (s & IS & ST). unfold cis_read. rewrite R.
  assert (NDR : NoDup (map fst (r1 ++ r2))).
  { assert (FE : map fst (r1 ++ r2) = map snd (l1 ++ l2)). { clear -F. induction F as [|p q l rest [E _] F IH]; cbn; congruence. } rewrite FE. exact ND. }
  rewrite (dict_get_nodup _ n s NDR) by (apply in_or_app; right; exact IS).
  rewrite filter_app, (filter_axis _ _ F1), (filter_no_axis _ _ F2), app_nil_r; [|intros v m I; eapply NAX; [eapply I2, I|apply K2, I]|intros v m I; eapply AX; [eapply I1, I|apply K1, I]].
  destruct (read_all l1 r1 F1) as (out & O & FO); [intros v m I; apply G; left; eapply I1, I|]. rewrite O. cbn [bind].
  destruct (G d (or_intror ID)) as (G1 & G2 & G3). destruct (read_back _ _ ST G1 G2 G3) as (dd & DD & SD). rewrite DD. cbn [bind]. exists out, dd. split; [reflexivity|]. split; [|exact SD].
  rewrite <- M1. clear -FO K1. induction FO as [|[v m] [m' x] l1 out [E S] FO IH]; cbn; constructor.
  - cbn in E, S. subst m'. split; [apply K1; left; auto|exact S].
  - apply IH. intros v' n' I. apply K1. right. exact I.
Qed.
End Fill.
