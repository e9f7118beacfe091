(** Proofs for C82. *)
From Coq Require Import String.
From Verif Require Import Base PyStr QBase DateModel DateProofs FileListProofs UngrModel UngrSpec UngrProofs GG3Proofs RafProofs CciSpec TxtModel TxtSpec.
From Coq Require Import List Ascii Lia Lqa.
Import ListNotations.
Open Scope string_scope. Open Scope list_scope. Open Scope nat_scope. Notation length := List.length.

Lemma space_iff c : is_space c = true <-> In c [" "; "013"; "010"]%char.
Proof. unfold is_space. rewrite !orb_true_iff, !Ascii.eqb_eq. cbn [In]. intuition congruence. Qed.
Lemma drop_blanks a s : blanks a -> drop_spaces (a ++ s) = drop_spaces s.
Proof. induction 1 as [|c a H F IH]; [reflexivity|]. cbn [app drop_spaces]. apply space_iff in H. rewrite H. exact IH. Qed.
Lemma drop_bare s : bare s -> drop_spaces s = s.
Proof. intros B. destruct s as [|c r]; [reflexivity|]. cbn [drop_spaces]. destruct (is_space c) eqn:E; [|reflexivity]. exfalso. apply space_iff in E. exact (B c r (or_introl eq_refl) E). Qed.
Lemma bare_rev s : bare s -> bare (rev s).
Proof.
  intros B c r [H|H].
  - apply (B c (rev r)). right. rewrite <- (rev_involutive s), H. cbn [rev]. reflexivity.
  - apply (B c (rev r)). left. rewrite <- (rev_involutive s), H, rev_app_distr. reflexivity.
Qed.
Lemma blanks_rev s : blanks s -> blanks (rev s).
Proof. intros B. unfold blanks in *. rewrite Forall_forall in *. intros c H. apply B. rewrite in_rev. exact H. Qed.
Lemma no_hash_blanks s : blanks s -> ~ In "#"%char s.
Proof. intros B H. unfold blanks in B. rewrite Forall_forall in B. specialize (B _ H). cbn [In] in B. destruct B as [B|[B|[B|[]]]]; discriminate B. Qed.
Lemma uncomment s r : ~ In "#"%char s -> remark r -> uncommented (s ++ r) = s.
Proof.
  intros H R. induction s as [|c s IH].
  - destruct R as [->|[r' ->]]; reflexivity.
  - cbn [app uncommented]. destruct (Ascii.eqb_spec c "#") as [E|N]; [exfalso; apply H; left; exact E|]. f_equal. apply IH. intros I. apply H. right. exact I.
Qed.
Lemma content_empty l : empty_line l -> content l = [].
Proof. intros (a & r & -> & A & R). unfold content. rewrite (uncomment a r (no_hash_blanks a A) R). rewrite <- (app_nil_r a), (drop_blanks a [] A). reflexivity. Qed.
Lemma join_no c d ps : c <> d -> Forall (fun f => ~ In d f) ps -> ~ In d (join_on c ps).
Proof.
  intros N F. induction F as [|p ps P F IH]; [intros []|]. destruct ps as [|q ps]; [exact P|]. change (join_on c (p :: q :: ps)) with (p ++ c :: join_on c (q :: ps)).
  intros I. apply in_app_or in I. destruct I as [I|[I|I]]; [exact (P I)|congruence|exact (IH I)].
Qed.
Lemma content_fields l fs : fs <> [] -> has_fields l fs -> content l <> [] /\ split_on "," (content l) = fs.
Proof.
  intros NE (a & b & r & t & -> & -> & N & A & B & R & BT & F).
  assert (E : content (a ++ join_on "," fs ++ b ++ r) = join_on "," fs).
  { unfold content. replace (a ++ join_on "," fs ++ b ++ r) with ((a ++ join_on "," fs ++ b) ++ r) by (rewrite <- !app_assoc; reflexivity).
    rewrite uncomment; [|..|exact R].
    - rewrite (drop_blanks a _ A).
      assert (X : drop_spaces (join_on "," fs ++ b) = join_on "," fs ++ b).
      { destruct (join_on "," fs) as [|c s] eqn:J; [exfalso; apply N; reflexivity|]. cbn [app drop_spaces]. destruct (is_space c) eqn:S; [|reflexivity]. exfalso. apply space_iff in S. exact (BT c s (or_introl eq_refl) S). }
      rewrite X, rev_app_distr, (drop_blanks _ _ (blanks_rev b B)), (drop_bare _ (bare_rev _ BT)), rev_involutive. reflexivity.
    - intros I. apply in_app_or in I. destruct I as [I|I]; [exact (no_hash_blanks a A I)|]. apply in_app_or in I. destruct I as [I|I]; [|exact (no_hash_blanks b B I)].
      revert I. apply join_no; [discriminate|]. eapply Forall_impl; [|exact F]. intros f [_ H]. exact H. }
  rewrite E. split; [exact N|]. apply split_join; [exact NE|]. rewrite Forall_forall in F. intros p P. apply (F p P).
Qed.
Lemma file_rows lines os : observations lines os -> map (split_on ",") (filter (fun l => negb (str_eqb l [])) (map content lines)) = os.
Proof.
  induction 1 as [|l ls os E H IH|l ls fs os NE F H IH]; [reflexivity| |].
  - cbn [map filter]. rewrite (content_empty l E). exact IH.
  - destruct (content_fields l fs NE F) as [A B]. cbn [map filter]. destruct (str_eqb (content l) []) eqn:S; [apply str_eqb_eq in S; contradiction|]. cbn [negb map]. rewrite B. f_equal. exact IH.
Qed.
Section Rows.
Variable number : str -> option Q.
Variable moment : str -> option datetime.
Notation gen := (genfromtxt number moment).
Notation rec := (record number moment).
Lemma record_ok fs : complete moment fs -> exists p, rec fs = Ok p /\ says number moment fs ([p_lat p; p_lon p; p_alt p; Some (date2num (p_time p))], p_value p).
Proof.
  intros (la & lo & al & ti & v & t & -> & M). unfold record. rewrite M. eexists. split; [reflexivity|]. exists la, lo, al, ti, v, t. eexists. split; [reflexivity|]. split; [exact M|]. split; [reflexivity|].
  cbn [p_time]. unfold date2num, seconds_between. change (toordinal std_ref) with 584023%Z. change (seconds_of_day std_ref) with 0%Z. rewrite !inject_Z_plus || idtac.
  unfold Z.sub. rewrite !inject_Z_plus, inject_Z_mult, !inject_Z_plus, !inject_Z_opp. field.
Qed.
Definition row_of (p : point) : list (option Q) * option Q := ([p_lat p; p_lon p; p_alt p; Some (date2num (p_time p))], p_value p).
Lemma records_ok os : Forall (complete moment) os -> exists l, map_res rec os = Ok l /\ Forall2 (says number moment) os (map row_of l).
Proof.
  induction 1 as [|fs os C F (l & E & IH)]; [exists []; split; [reflexivity|constructor]|].
  destruct (record_ok fs C) as (p & P & S). exists (p :: l). split; [cbn [map_res]; rewrite P, E; reflexivity|]. constructor; [exact S|exact IH].
Qed.
Lemma five os : Forall (complete moment) os -> forallb (fun r => length r =? 5) os = true.
Proof. intros F. apply forallb_forall. rewrite Forall_forall in F. intros fs I. destruct (F fs I) as (la & lo & al & ti & v & t & -> & _). reflexivity. Qed.
Lemma gen_ok lines os : observations lines os -> Forall (complete moment) os -> 2 <= length os -> exists l, gen lines = Ok (One l) /\ Forall2 (says number moment) os (map row_of l).
Proof.
  intros O C L. destruct (records_ok os C) as (l & E & S). exists l. split; [|exact S]. unfold genfromtxt. rewrite (file_rows lines os O), (five os C).
  destruct os as [|a [|b os]]; cbn [length] in L; [lia|lia|]. rewrite E. reflexivity.
Qed.
Lemma gen_one lines fs : observations lines [fs] -> complete moment fs -> exists p, gen lines = Ok (Zero p).
Proof.
  intros O C. destruct (record_ok fs C) as (p & E & _). exists p. unfold genfromtxt. rewrite (file_rows lines _ O), (five [fs]) by (constructor; [exact C|constructor]). rewrite E. reflexivity.
Qed.
Lemma gens_ok files oss : Forall2 observations files oss -> Forall (fun os => Forall (complete moment) os /\ 2 <= length os) oss ->
  exists ls, map_res gen files = Ok (map One ls) /\ Forall2 (says number moment) (concat oss) (map row_of (concat ls)).
Proof.
  induction 1 as [|f os files oss O F IH]; intros C; [exists []; split; [reflexivity|constructor]|].
  inversion C as [|? ? [C1 C2] C3]; subst. destruct (IH C3) as (ls & E & S). destruct (gen_ok f os O C1 C2) as (l & E1 & S1).
  exists (l :: ls). split; [cbn [map_res map]; rewrite E1, E; reflexivity|]. cbn [concat]. rewrite map_app. apply Forall2_app; assumption.
Qed.
Lemma concat_fold ls : forall a, fold_left (fun acc x => bind acc (fun acc => concat2 acc x)) (map One ls) (Ok (One a)) = Ok (One (a ++ concat ls)).
Proof. induction ls as [|l ls IH]; intros a; cbn [map fold_left concat]; [rewrite app_nil_r; reflexivity|]. cbn [bind concat2]. rewrite IH, <- app_assoc. reflexivity. Qed.
Lemma concatenate_ok ls : ls <> [] -> concatenate (map One ls) = Ok (One (concat ls)).
Proof. destruct ls as [|l ls]; [intros N; exfalso; apply N; reflexivity|intros _]. cbn [map concatenate]. apply concat_fold. Qed.

Lemma txt_coords_ok l : exists cs, txt_coords l = Ok cs /\ cs = [txt_coord "latitude" (map p_lat l); txt_coord "longitude" (map p_lon l); txt_coord "altitude" (map p_alt l); txt_coord "time" (map (fun p => Some (date2num (p_time p))) l)].
Proof. eexists. split; [|reflexivity]. reflexivity. Qed.
Lemma nth_map_default {A B} (f : A -> B) (l : list A) d i x : nth_error l i = Some x -> nth i (map f l) d = f x.
Proof. revert i. induction l as [|a l IH]; intros [|i]; cbn; try discriminate; [intros [= ->]; reflexivity|apply IH]. Qed.
Lemma raw_rows l cs sh : txt_coords l = Ok cs -> aligned (mkU cs sh (map p_value l)) /\ rows (mkU cs sh (map p_value l)) = map row_of l.
Proof.
  intros E. destruct (txt_coords_ok l) as (cs' & E' & ->). rewrite E' in E. injection E as <-. split.
  - unfold aligned. cbn [u_coords u_values]. repeat constructor; cbn [c_points txt_coord]; rewrite !map_length; reflexivity.
  - unfold rows. cbn [u_values]. rewrite map_length. apply (nth_ext _ _ ([], None) ([], None)); [rewrite !map_length, seq_length; reflexivity|].
    intros i I. rewrite map_length, seq_length in I. destruct (nth_error l i) as [p|] eqn:P; [|apply nth_error_None in P; lia].
    rewrite (nth_map_default row_of l _ i p P). rewrite (nth_map_default _ (seq 0 (length l)) _ i i); [|rewrite (nth_error_nth' _ 0) by (rewrite seq_length; exact I); rewrite seq_nth by exact I; reflexivity].
    unfold row_at, row_of. cbn [u_coords u_values map c_points txt_coord].
    rewrite (nth_map_default p_lat l _ i p P), (nth_map_default p_lon l _ i p P), (nth_map_default p_alt l _ i p P), (nth_map_default (fun p => Some (date2num (p_time p))) l _ i p P), (nth_map_default p_value l _ i p P). reflexivity.
Qed.
Lemma std_kept l cs d d' : txt_coords l = Ok cs -> u_coords d = cs -> map identity_of (u_coords d') = map identity_of (u_coords d) -> map c_std (u_coords d') = four.
Proof.
  intros E <- I. assert (X : forall cs, map c_std cs = map (fun t => fst (fst (fst t))) (map identity_of cs)) by (intros; rewrite map_map; reflexivity).
  rewrite X, I, <- X. destruct (txt_coords_ok l) as (cs' & E' & ->). rewrite E' in E. injection E as <-. reflexivity.
Qed.
Theorem read_ok files oss name : files <> [] -> Forall2 observations files oss -> Forall (fun os => Forall (complete moment) os /\ 2 <= length os) oss ->
  exists d raw, read_txt number moment files name = Ok d /\ map c_std (u_coords d) = four /\ Forall2 (says number moment) (concat oss) raw /\ rows d = filter located raw.
Proof.
  intros N O C. destruct (gens_ok files oss O C) as (ls & E & S). unfold read_txt, read_points. rewrite E. cbn [bind].
  rewrite concatenate_ok by (intros ->; inversion O; subst; [apply N; reflexivity|]; cbn [map_res map] in E; destruct (gen x) as [?|?]; [destruct (map_res gen l) as [?|?]|]; cbn [bind] in E; discriminate E).
  cbn [bind]. destruct (txt_coords_ok (concat ls)) as (cs & E2 & _). rewrite E2. cbn [bind].
  destruct (raw_rows (concat ls) cs [length (concat ls)] E2) as [A R]. destruct (post_process_spec _ A) as (d & P & _ & RR & I). exists d, (map row_of (concat ls)). split; [exact P|].
  split; [eapply std_kept; [exact E2| |exact I]; reflexivity|]. split; [exact S|]. rewrite RR, R. reflexivity.
Qed.
(** without a variable: the same points *)
Theorem points_ok files oss name d : files <> [] -> Forall2 observations files oss -> Forall (fun os => Forall (complete moment) os /\ 2 <= length os) oss -> read_txt number moment files name = Ok d -> read_txt_coords number moment files = Ok (u_coords d).
Proof.
  intros N O C E. unfold read_txt, read_txt_coords in *. destruct (read_points number moment files) as [l|e]; [|discriminate E]. cbn [bind] in *. destruct (txt_coords_ok l) as (cs & E2 & X). rewrite E2 in *. cbn [bind] in *.
  destruct (raw_rows l cs [length l] E2) as [A _]. unfold post_process in E. cbn [u_values u_coords] in E. subst cs. unfold post_process_coords. cbn [c_points txt_coord]. rewrite map_length in E |- *. destruct (missing_mask _ _) as [mask|e]; [|discriminate E]. cbn [bind] in *.
  destruct (existsb _ mask); injection E as <-; reflexivity.
Qed.
(** a file of one observation *)
Theorem single f fs name : observations f [fs] -> complete moment fs -> read_txt number moment [f] name = Raises TypeError /\ read_txt_coords number moment [f] = Raises TypeError.
Proof. intros O C. destruct (gen_one f fs O C) as (p & E). unfold read_txt, read_txt_coords, read_points. cbn [map_res]. rewrite E. split; reflexivity. Qed.
Lemma fold_raises e r : fold_left (fun acc x => bind acc (fun acc => concat2 acc x)) r (Raises e) = Raises e.
Proof. induction r as [|x r IH]; [reflexivity|exact IH]. Qed.
Lemma fold_zero r : forall a, (exists p, In (Zero p) r) -> fold_left (fun acc x => bind acc (fun acc => concat2 acc x)) r (Ok a) = Raises ValueError.
Proof.
  induction r as [|x r IH]; intros a [p I]; [destruct I|]. cbn [fold_left bind]. destruct I as [->|I].
  - destruct a; cbn [concat2]; apply fold_raises.
  - destruct a as [q|a], x as [q'|x]; cbn [concat2]; try apply fold_raises. apply IH. exists p. exact I.
Qed.
Theorem single_of_many files oss name : 2 <= length files -> Forall2 observations files oss -> Forall (fun os => Forall (complete moment) os /\ os <> []) oss -> (exists fs, In [fs] oss) ->
  read_txt number moment files name = Raises ValueError.
Proof.
  intros L O C [fs I].
  assert (G : exists arrays, map_res gen files = Ok arrays /\ length arrays = length files /\ exists p, In (Zero p) arrays).
  { clear L. revert C I. induction O as [|f os files oss O1 F IH]; intros C I; [destruct I|]. inversion C as [|? ? [C1 C2] C3]; subst.
    assert (A : forall fs0 : list str, complete moment fs0 -> True) by auto. clear A.
    assert (G1 : exists a, gen f = Ok a /\ (os = [fs] -> exists p, a = Zero p)).
    { destruct os as [|x [|y os]]; [exfalso; apply C2; reflexivity| |].
      - inversion C1; subst. destruct (gen_one f x O1 H1) as (p & E). exists (Zero p). split; [exact E|intros _; exists p; reflexivity].
      - destruct (gen_ok f _ O1 C1) as (l & E & _); [cbn [length]; lia|]. exists (One l). split; [exact E|intros X; discriminate X]. }
    destruct G1 as (a & E & Z).
    assert (G2 : exists arrays, map_res gen files = Ok arrays /\ length arrays = length files).
    { clear IH I Z E C1 C2 O1. clear C. revert C3. induction F as [|f' os' files oss O' F IH']; intros C; [exists []; split; reflexivity|]. inversion C as [|? ? [D1 D2] D3]; subst.
      destruct (IH' D3) as (ar & E1 & E2).
      assert (exists a, gen f' = Ok a) as [a' E'].
      { destruct os' as [|x [|y os']]; [exfalso; apply D2; reflexivity| |].
        - inversion D1; subst. destruct (gen_one f' x O' H1) as (p & E). exists (Zero p). exact E.
        - destruct (gen_ok f' _ O' D1) as (l & E & _); [cbn [length]; lia|]. exists (One l). exact E. }
      exists (a' :: ar). split; [cbn [map_res]; rewrite E', E1; reflexivity|cbn [length]; congruence]. }
    destruct I as [->|I].
    - destruct (Z eq_refl) as [p ->]. destruct G2 as (ar & E1 & E2). exists (Zero p :: ar). split; [cbn [map_res]; rewrite E, E1; reflexivity|]. split; [cbn [length]; congruence|]. exists p. left. reflexivity.
    - destruct (IH C3 I) as (ar & E1 & E2 & p & P). exists (a :: ar). split; [cbn [map_res]; rewrite E, E1; reflexivity|]. split; [cbn [length]; congruence|]. exists p. right. exact P. }
  destruct G as (arrays & E & EL & p & P). unfold read_txt, read_points. rewrite E. cbn [bind]. destruct arrays as [|a r]; [destruct P|]. cbn [length] in EL. cbn [concatenate].
  assert (X : fold_left (fun acc x => bind acc (fun acc => concat2 acc x)) r (Ok a) = Raises ValueError).
  { destruct P as [->|P]; [|apply fold_zero; exists p; exact P]. destruct r as [|x r]; [cbn [length] in EL; lia|]. cbn [fold_left bind concat2]. apply fold_raises. }
  rewrite X. reflexivity.
Qed.
(** another number of fields *)
Theorem wrong_columns pre f post oss os name : Forall2 observations pre oss -> Forall (fun os => Forall (complete moment) os /\ os <> []) oss -> observations f os -> (os = [] \/ exists fs, In fs os /\ length fs <> 5) ->
  read_txt number moment (pre ++ f :: post) name = Raises OSError.
Proof.
  intros F C O B. assert (E : gen f = Raises OSError).
  { unfold genfromtxt. rewrite (file_rows f os O). destruct B as [->|(fs & I & N)]; [reflexivity|]. destruct (forallb _ os) eqn:X; [|reflexivity]. exfalso. rewrite forallb_forall in X. specialize (X fs I). apply Nat.eqb_eq in X. contradiction. }
  assert (M : map_res gen (pre ++ f :: post) = Raises OSError).
  { revert C. induction F as [|f' os' files oss O' F IH]; intros C; [cbn [app map_res]; rewrite E; reflexivity|]. inversion C as [|? ? [D1 D2] D3]; subst. cbn [app map_res].
    assert (exists a, gen f' = Ok a) as [a' ->].
    { destruct os' as [|x [|y os']]; [exfalso; apply D2; reflexivity| |].
      - inversion D1; subst. destruct (gen_one f' x O' H1) as (p & E'). exists (Zero p). exact E'.
      - destruct (gen_ok f' _ O' D1) as (l & E' & _); [cbn [length]; lia|]. exists (One l). exact E'. }
    cbn [bind]. rewrite (IH D3). reflexivity. }
  unfold read_txt, read_points. rewrite M. reflexivity.
Qed.
End Rows.
