From Verif Require Import Base PyStr OSetModel OSetSpec OSetProofs FileListModel FileListSpec.

(** ** expand_filelist *)
Lemma has_wildcard_spec e : has_wildcard e = true <-> is_wild e.
Proof.
  unfold has_wildcard, is_wild. rewrite !orb_true_iff, !has_char_true. tauto.
Qed.
Lemma has_wildcard_false e : has_wildcard e = false <-> ~ is_wild e.
Proof. rewrite <- has_wildcard_spec. destruct (has_wildcard e); intuition congruence. Qed.

Lemma run_app os1 os2 : forall s : oset str,
  fst (run str_eq_dec s (os1 ++ os2)) = fst (run str_eq_dec (fst (run str_eq_dec s os1)) os2).
Proof.
  induction os1 as [|o os1 IH]; intros s; simpl; auto.
  destruct (step str_eq_dec s o) as [s1 r]. specialize (IH s1).
  destruct (run str_eq_dec s1 (os1 ++ os2)) as [a b], (run str_eq_dec s1 os1) as [c d]. simpl in *. auto.
Qed.
Definition adds (l : list str) : list (op str) := map (fun k => Add k) l.

Lemma fold_oadd l : forall s, fold_left oadd l s = fst (run str_eq_dec s (adds l)).
Proof.
  induction l as [|k l IH]; intros s; simpl; auto.
  fold (adds l). unfold oadd at 2. rewrite IH. destruct (run str_eq_dec (add str_eq_dec s k) (adds l)). reflexivity.
Qed.

Lemma fold_cond_oadd (f : str -> bool) (g : str -> str) l : forall s,
  fold_left (fun st a => if f (g a) then oadd st (g a) else st) l s = fold_left oadd (filter f (map g l)) s.
Proof.
  induction l as [|a l IH]; intros s; simpl; auto. rewrite IH. destruct (f (g a)); reflexivity.
Qed.

Definition contribution (fs : filesystem) (e : str) : option (list str) :=
  if has_wildcard e then Some (str_sort (fs_glob fs e))
  else if fs_isdir fs e then Some (filter (fs_isfile fs) (map (fs_join fs e) (str_sort (fs_listdir fs e))))
  else if fs_isfile fs e then Some [e] else None.

Lemma expand_element_contribution fs st e :
  expand_element fs st e = match contribution fs e with Some l => Ok (fold_left oadd l st) | None => Raises ValueError end.
Proof.
  unfold expand_element, contribution. destruct (has_wildcard e); auto.
  destruct (fs_isdir fs e); [rewrite <- fold_cond_oadd; auto|]. destruct (fs_isfile fs e); auto.
Qed.

Fixpoint contributions (fs : filesystem) (els : list str) : option (list (list str)) :=
  match els with
  | [] => Some []
  | e :: els' => match contribution fs e, contributions fs els' with
                 | Some l, Some ls => Some (l :: ls) | _, _ => None end
  end.

Lemma expand_loop_contributions fs els : forall st,
  expand_loop fs st els = match contributions fs els with
                          | Some ls => Ok (fold_left oadd (concat ls) st) | None => Raises ValueError end.
Proof.
  induction els as [|e els IH]; intros st; simpl; auto.
  rewrite expand_element_contribution. destruct (contribution fs e) as [l|]; simpl; auto.
  rewrite IH. destruct (contributions fs els); auto. simpl. rewrite fold_left_app. auto.
Qed.

Lemma spec_run_adds l : forall acc, fst (spec_run str_eq_dec acc (adds l)) = fold_left (spec_add str_eq_dec) l acc.
Proof.
  induction l as [|k l IH]; intros acc; simpl; auto. fold (adds l).
  rewrite <- IH. destruct (spec_run str_eq_dec (spec_add str_eq_dec acc k) (adds l)). reflexivity.
Qed.

Definition dedup (l : list str) : list str := fold_left (spec_add str_eq_dec) l [].

Lemma expand_filelist_eq fs els :
  expand_filelist fs els = match contributions fs els with Some ls => Ok (dedup (concat ls)) | None => Raises ValueError end.
Proof.
  unfold expand_filelist. rewrite expand_loop_contributions.
  destruct (contributions fs els) as [ls|]; simpl; auto.
  rewrite fold_oadd. pose proof (oset_refines str_eq_dec (adds (concat ls))) as H.
  pose proof (spec_run_adds (concat ls) []) as S.
  destruct (run str_eq_dec empty (adds (concat ls))) as [s o], (spec_run str_eq_dec [] (adds (concat ls))) as [l o'].
  simpl in *. destruct H as (_ & H & _). rewrite H, S. reflexivity.
Qed.

Lemma dedup_snoc l p : dedup (l ++ [p]) = spec_add str_eq_dec (dedup l) p.
Proof. unfold dedup. rewrite fold_left_app. reflexivity. Qed.
Lemma dedup_in l : forall p, In p (dedup l) <-> In p l.
Proof.
  induction l as [|q l IH] using rev_ind; intros p; [reflexivity|].
  rewrite dedup_snoc. unfold spec_add. destruct (in_dec str_eq_dec q (dedup l)) as [H|H].
  - rewrite IH, in_app_iff. simpl. apply IH in H. intuition congruence.
  - rewrite !in_app_iff, IH. reflexivity.
Qed.
Lemma dedup_first l : first_occurrences l (dedup l).
Proof.
  induction l as [|q l IH] using rev_ind; [constructor|].
  rewrite dedup_snoc. unfold spec_add. destruct (in_dec str_eq_dec q (dedup l)) as [H|H]; rewrite dedup_in in H.
  - apply fo_old; auto.
  - apply fo_new; auto.
Qed.
Lemma first_in l r : first_occurrences l r -> forall p, In p r <-> In p l.
Proof.
  induction 1 as [|l q r H IH Hn|l q r H IH Hn]; intros p; [reflexivity| |].
  - rewrite !in_app_iff, IH. reflexivity.
  - rewrite in_app_iff, IH. simpl. intuition congruence.
Qed.
Lemma NoDup_snoc (l : list str) p : NoDup l -> ~ In p l -> NoDup (l ++ [p]).
Proof.
  intros H Hn. apply Permutation_NoDup with (l := p :: l); [apply Permutation_cons_append|constructor; auto].
Qed.
Lemma first_nodup l r : first_occurrences l r -> NoDup r.
Proof.
  induction 1 as [|l q r H IH Hn|l q r H IH Hn]; auto; [constructor|].
  apply NoDup_snoc; auto. rewrite (first_in _ _ H). auto.
Qed.

Lemma contribution_expansion fs e l : contribution fs e = Some l -> expansion fs e l.
Proof.
  unfold contribution. destruct (has_wildcard e) eqn:W.
  - intros [= <-]. apply has_wildcard_spec in W. apply ex_wild; auto.
    + symmetry. apply str_sort_perm.
    + apply str_sort_sorted.
  - apply has_wildcard_false in W. destruct (fs_isdir fs e) eqn:D.
    + intros [= <-]. apply ex_dir; auto. symmetry; apply str_sort_perm. apply str_sort_sorted.
    + destruct (fs_isfile fs e) eqn:F; [|discriminate]. intros [= <-]. apply ex_file; auto.
Qed.
Lemma contribution_none fs e : contribution fs e = None <-> invalid_element fs e.
Proof.
  unfold contribution, invalid_element. destruct (has_wildcard e) eqn:W.
  - apply has_wildcard_spec in W. split; [discriminate|tauto].
  - apply has_wildcard_false in W.
    destruct (fs_isdir fs e); [split; [discriminate|intuition congruence]|].
    destruct (fs_isfile fs e); [split; [discriminate|intuition congruence]|tauto].
Qed.
Lemma expansion_selects fs e l : expansion fs e l -> forall p, In p l <-> selects fs e p.
Proof.
  unfold selects. intros [l' W P S|l' W D P S|W D F] p.
  - split.
    + intros H. left. split; auto. eapply Permutation_in; eauto.
    + intros [[_ H]|[[N _]|[N _]]]; try contradiction. eapply Permutation_in; [symmetry|]; eauto.
  - rewrite filter_In, in_map_iff. split.
    + intros [(f & <- & Hf) F]. right. left. repeat split; auto. exists f. split; auto. eapply Permutation_in; eauto.
    + intros [[N _]|[(_ & _ & F & f & Hf & ->)|(_ & D' & _)]]; try contradiction; try congruence.
      split; auto. exists f. split; auto. eapply Permutation_in; [symmetry|]; eauto.
  - simpl. split.
    + intros [<-|[]]. tauto.
    + intros [[N _]|[(_ & D' & _)|(_ & _ & _ & ->)]]; try contradiction; try congruence. auto.
Qed.

Lemma contributions_spec fs els ls : contributions fs els = Some ls -> Forall2 (expansion fs) els ls.
Proof.
  revert ls. induction els as [|e els IH]; simpl; intros ls H.
  - injection H as <-. constructor.
  - destruct (contribution fs e) eqn:C; [|discriminate]. destruct (contributions fs els); [|discriminate].
    injection H as <-. constructor; auto. apply contribution_expansion; auto.
Qed.
Lemma contributions_none fs els : contributions fs els = None <-> exists e, In e els /\ invalid_element fs e.
Proof.
  induction els as [|e els IH]; simpl.
  - split; [discriminate|]. intros (e & [] & _).
  - destruct (contribution fs e) as [l|] eqn:C.
    + destruct (contributions fs els).
      * split; [discriminate|]. intros (e' & [<-|H] & I).
        -- apply contribution_none in I. congruence.
        -- assert (Some l0 = None) by (apply IH; eauto). discriminate.
      * split; auto. intros _. destruct IH as [IH _]. destruct IH as (e' & H & I); auto. eauto.
    + split; auto. intros _. exists e. split; auto. apply contribution_none; auto.
Qed.

Lemma expand_filelist_correct fs els :
  match expand_filelist fs els with
  | Ok files =>
      (forall e, In e els -> ~ invalid_element fs e)
      /\ (exists parts, Forall2 (expansion fs) els parts /\ first_occurrences (concat parts) files)
      /\ NoDup files
      /\ forall p, In p files <-> exists e, In e els /\ selects fs e p
  | Raises x => x = ValueError /\ exists e, In e els /\ invalid_element fs e
  end.
Proof.
  rewrite expand_filelist_eq. destruct (contributions fs els) as [ls|] eqn:C.
  - assert (forall e, In e els -> ~ invalid_element fs e) as HI.
    { intros e He I. assert (contributions fs els = None) by (apply contributions_none; eauto). congruence. }
    apply contributions_spec in C. split; auto. split; [|split].
    + exists ls. split; auto. apply dedup_first.
    + eapply first_nodup, dedup_first.
    + intros p. rewrite dedup_in, in_concat. split.
      * intros (l & Hl & Hp). clear HI. induction C as [|e l' els ls E C IH]; simpl in Hl; [tauto|].
        destruct Hl as [->|Hl].
        -- exists e. split; simpl; auto. eapply expansion_selects; eauto.
        -- destruct (IH Hl) as (e' & ? & ?). exists e'. simpl; auto.
      * intros (e & He & S). clear HI. induction C as [|e' l' els ls E C IH]; simpl in He; [tauto|].
        destruct He as [->|He].
        -- exists l'. split; simpl; auto. eapply expansion_selects; eauto.
        -- destruct (IH He) as (l & ? & ?). exists l. simpl; auto.
  - split; auto. apply contributions_none; auto.
Qed.

(** files only, provided wildcards match files only *)
Lemma expand_filelist_files fs els files :
  (forall e p, In e els -> is_wild e -> In p (fs_glob fs e) -> fs_isfile fs p = true) ->
  expand_filelist fs els = Ok files -> forall p, In p files -> fs_isfile fs p = true.
Proof.
  intros HG E p Hp. pose proof (expand_filelist_correct fs els) as H. rewrite E in H.
  destruct H as (_ & _ & _ & H). apply H in Hp. destruct Hp as (e & He & [[W G]|[(_ & _ & F & _)|(_ & _ & F & ->)]]); eauto.
Qed.

(** witness: a wildcard matching a directory *)
Definition dir_fs : filesystem :=
  mkFS (fun _ => [lit "data"%string]) (fun p => str_eqb p (lit "data"%string)) (fun _ => []) (fun _ => false)
       (fun a b => a ++ "/"%char :: b).
Lemma expand_filelist_returns_directory :
  exists fs els files p, expand_filelist fs els = Ok files /\ In p files /\ fs_isfile fs p = false /\ fs_isdir fs p = true.
Proof.
  exists dir_fs, [lit "d*"%string], [lit "data"%string], (lit "data"%string). vm_compute. auto.
Qed.

Lemma expand_file_list_correct fs s :
  match expand_file_list fs s with
  | Ok files => files <> [] /\ expand_filelist fs (split_on "," s) = Ok files
  | Raises x => x = ParserError
       /\ (s = [] \/ (exists e, In e (split_on "," s) /\ invalid_element fs e)
                  \/ (forall e p, In e (split_on "," s) -> ~ selects fs e p))
  end.
Proof.
  unfold expand_file_list, expand_filelist_string. destruct s as [|a s]; [auto|].
  pose proof (expand_filelist_correct fs (split_on "," (a :: s))) as H.
  destruct (expand_filelist fs (split_on "," (a :: s))) as [[|f files]|x] eqn:E.
  - split; auto. right; right. intros e p He Hs. destruct H as (_ & _ & _ & H). apply (H p). eauto.
  - split; congruence.
  - destruct H as [-> H]. auto.
Qed.

(** ** key=value *)
Lemma dict_get_set {V} (d : list (str * V)) k v k' :
  dict_get (dict_set d k v) k' = if str_eq_dec k k' then Some v else dict_get d k'.
Proof.
  induction d as [|[a w] d IH]; simpl.
  - destruct (str_eq_dec k k'); auto.
  - destruct (str_eq_dec a k) as [->|n]; simpl.
    + destruct (str_eq_dec k k'); auto.
    + rewrite IH. destruct (str_eq_dec a k') as [->|]; auto. destruct (str_eq_dec k k'); congruence.
Qed.
Lemma dict_set_keys {V} (d : list (str * V)) k v :
  map fst (dict_set d k v) = if in_dec str_eq_dec k (map fst d) then map fst d else map fst d ++ [k].
Proof.
  induction d as [|[a w] d IH]; simpl; auto.
  destruct (str_eq_dec a k) as [->|n]; simpl.
  - reflexivity.
  - rewrite IH. destruct (in_dec str_eq_dec k (map fst d)); reflexivity.
Qed.
Lemma dict_set_nodup {V} (d : list (str * V)) k v : NoDup (map fst d) -> NoDup (map fst (dict_set d k v)).
Proof.
  intros H. rewrite dict_set_keys. destruct (in_dec str_eq_dec k (map fst d)); auto. apply NoDup_snoc; auto.
Qed.
Lemma dict_get_in {V} (d : list (str * V)) k : dict_get d k <> None <-> In k (map fst d).
Proof.
  induction d as [|[a w] d IH]; simpl; [tauto|]. destruct (str_eq_dec a k) as [->|n].
  - split; auto; congruence.
  - rewrite IH. intuition congruence.
Qed.

Definition key_of (e : str) : str := nth 0 (split_on "=" e) [].
Definition val_of (e : str) : optval :=
  if 1 <? length (split_on "=" e) then VStr (nth 1 (split_on "=" e) []) else VTrue.
Lemma mentions_iff e k v : mentions e k v <-> k = key_of e /\ v = val_of e.
Proof.
  split.
  - intros [Hk H]. unfold key_of, val_of. destruct v as [w|].
    + destruct H as [Hw [->|(rest & ->)]].
      * rewrite split_app_sep by auto. rewrite (split_nosep _ w) by auto. auto.
      * rewrite split_app_sep by auto. rewrite split_app_sep by auto. auto.
    + subst e. rewrite split_nosep by auto. auto.
  - intros [-> ->]. unfold key_of, val_of, mentions.
    pose proof (join_split "=" e) as J. pose proof (split_on_nonnil "=" e) as NN.
    pose proof (split_pieces "=" e) as P.
    destruct (split_on "=" e) as [|p [|q [|r rs]]]; [congruence| | |]; cbn [nth length Nat.ltb Nat.leb] in *.
    + split; [apply P; simpl; auto|]. simpl in J. auto.
    + split; [apply P; simpl; auto|]. split; [apply P; simpl; auto|]. left. simpl in J. auto.
    + split; [apply P; simpl; auto|]. split; [apply P; simpl; auto|]. right.
      exists (join_on "=" (r :: rs)). rewrite <- J. reflexivity.
Qed.

Lemma parse_key_val_snoc l e : parse_key_val_list (l ++ [e]) = dict_set (parse_key_val_list l) (key_of e) (val_of e).
Proof. unfold parse_key_val_list. rewrite fold_left_app. reflexivity. Qed.

Lemma parse_key_val_get l k :
  match dict_get (parse_key_val_list l) k with
  | Some v => exists l1 e l2, l = l1 ++ e :: l2 /\ mentions e k v /\ forall e' v', In e' l2 -> ~ mentions e' k v'
  | None => forall e v, In e l -> ~ mentions e k v
  end.
Proof.
  induction l as [|e l IH] using rev_ind.
  - simpl. intros e v [].
  - rewrite parse_key_val_snoc, dict_get_set. destruct (str_eq_dec (key_of e) k) as [E|E].
    + exists l, e, []. split; auto. split; [apply mentions_iff; auto|]. intros e' v' [].
    + destruct (dict_get (parse_key_val_list l) k) as [v|].
      * destruct IH as (l1 & e1 & l2 & -> & M & H). exists l1, e1, (l2 ++ [e]). rewrite <- app_assoc. split; auto.
        split; auto. intros e' v' Hin. apply in_app_iff in Hin. destruct Hin as [Hin|[<-|[]]]; auto.
        intros M'. apply mentions_iff in M'. destruct M'; congruence.
      * intros e' v' Hin. apply in_app_iff in Hin. destruct Hin as [Hin|[<-|[]]]; auto.
        intros M'. apply mentions_iff in M'. destruct M'; congruence.
Qed.
Lemma parse_key_val_nodup l : NoDup (map fst (parse_key_val_list l)).
Proof.
  induction l as [|e l IH] using rev_ind; [constructor|]. rewrite parse_key_val_snoc. apply dict_set_nodup; auto.
Qed.
Lemma mentions_total e : exists k v, mentions e k v.
Proof. exists (key_of e), (val_of e). apply mentions_iff; auto. Qed.
