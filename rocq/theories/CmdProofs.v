(** Proofs for C52, C61 and C64. *)
From Coq Require Import String.
From Verif Require Import Base PyStr ParseModel ParseProofs Parse2Proofs RdrModel EvalModel CmdModel CmdSpec.
From Coq Require Import List.
Import ListNotations.
Open Scope string_scope. Open Scope list_scope. Open Scope nat_scope. Notation length := List.length.

Section Proofs.
Context {D S K : Type}.
Implicit Types (fs : files D) (w : world D S K).

Lemma nothing_only out fs : changes_only out fs fs.
Proof. intros p _ _. reflexivity. Qed.
Lemma write_view fs p c : view (write fs p c) p = Some c.
Proof.
  unfold write, view. destruct (f_ino fs p) as [i|] eqn:E; cbn.
  - rewrite E. cbn. rewrite Nat.eqb_refl. reflexivity.
  - rewrite str_eqb_refl. cbn. rewrite Nat.eqb_refl. reflexivity.
Qed.
Lemma write_only fs p c : sound fs -> changes_only p fs (write fs p c).
Proof.
  intros So q N NS. unfold write, view. destruct (f_ino fs p) as [i|] eqn:E; cbn.
  - destruct (f_ino fs q) as [j|] eqn:Q; auto. cbn. destruct (Nat.eqb_spec j i); auto. subst. exfalso. apply NS. exists i. auto.
  - destruct (str_eqb q p) eqn:QP; [apply str_eqb_eq in QP; congruence|]. destruct (f_ino fs q) as [j|] eqn:Q; auto. cbn. apply So in Q. destruct (Nat.eqb_spec j (f_next fs)); auto. lia.
Qed.
Lemma write_sound fs p c : sound fs -> sound (write fs p c).
Proof.
  intros So q i. unfold write. destruct (f_ino fs p) eqn:E; cbn; [apply So|]. destruct (str_eqb q p); [intros H; injection H as <-; lia|]. intros H. apply So in H. lia.
Qed.
(** other names lead where they led *)
Lemma write_ino fs p c q : q <> p -> f_ino (write fs p c) q = f_ino fs q.
Proof. intros N. unfold write. destruct (f_ino fs p); cbn; auto. destruct (str_eqb q p) eqn:E; auto. apply str_eqb_eq in E. congruence. Qed.
Lemma write_same fs p c q : sound fs -> q <> p -> same_file (write fs p c) p q -> same_file fs p q.
Proof.
  intros So N (i & A & B). rewrite write_ino in B by auto. unfold write in A. destruct (f_ino fs p) as [j|] eqn:E; cbn in A.
  - exists i. rewrite E in A |- *. auto.
  - rewrite str_eqb_refl in A. injection A as <-. apply So in B. lia.
Qed.
Lemma save_spec w d out fs fs' e : sound fs -> save_data w d out fs = (fs', e) ->
  changes_only out fs fs' /\ sound fs' /\ (forall p, p <> out -> same_file fs' out p -> same_file fs out p) /\
  match e with
  | Done => view fs' out = Some (Result d)
  | Exit1 => False
  | Error x => (w_save w d out = Refused x /\ changes_nothing fs fs') \/ exists n, w_save w d out = BrokenOff x n /\ view fs' out = Some (Bytes n)
  end.
Proof.
  intros So. unfold save_data. destruct (w_save w d out) as [|x|x n] eqn:E; intros H; injection H as <- <-.
  - split; [apply write_only; auto|]. split; [apply write_sound; auto|]. split; [intros; eapply write_same; eauto|apply write_view].
  - split; [apply nothing_only|]. split; auto. split; auto. left. split; auto. intros p. reflexivity.
  - split; [apply write_only; auto|]. split; [apply write_sound; auto|]. split; [intros; eapply write_same; eauto|]. right. exists n. split; auto. apply write_view.
Qed.

Lemma aon_error w (computed : res D -> Prop) out fs x : computed (Raises x) -> all_or_nothing w computed out fs fs (Error x).
Proof. intros C. split; [apply nothing_only|]. left. split; auto. intros p. reflexivity. Qed.
Lemma aon_save w (computed : res D -> Prop) d out fs fs' e : sound fs -> computed (Ok d) -> save_data w d out fs = (fs', e) -> all_or_nothing w computed out fs fs' e.
Proof.
  intros So C E. destruct (save_spec _ _ _ _ _ _ So E) as (A & _ & _ & B). split; auto. destruct e; [eauto|contradiction|]. right. exists d. auto.
Qed.

Theorem subset_all : forall w gs limits out fs fs' e, sound fs -> subset_cmd w gs limits out fs = (fs', e) ->
  all_or_nothing w (group_data w fs gs (subset_result w limits)) out fs fs' e.
Proof.
  intros w gs limits out fs fs' e So. unfold subset_cmd, only_group. destruct gs as [|g [|g' gs]].
  - intros H; injection H as <- <-. apply aon_error. reflexivity.
  - unfold try. destruct (w_read w (view fs) (c_group g)) as [data|x] eqn:R.
    + destruct (w_subset w limits data) as [[d|]|x] eqn:U; intros H.
      * eapply aon_save; eauto. cbn. rewrite R. unfold subset_result. rewrite U. auto.
      * injection H as <- <-. apply aon_error. cbn. rewrite R. unfold subset_result. rewrite U. auto.
      * injection H as <- <-. apply aon_error. cbn. rewrite R. unfold subset_result. rewrite U. auto.
    + intros H; injection H as <- <-. apply aon_error. cbn. rewrite R. auto.
  - intros H; injection H as <- <-. split; [apply nothing_only|]. intros p. reflexivity.
Qed.

Theorem aggregate_all : forall w gs grid out fs fs' e, sound fs -> aggregate_cmd w gs grid out fs = (fs', e) ->
  all_or_nothing w (group_data w fs gs (aggregate_result w grid)) out fs fs' e.
Proof.
  intros w gs grid out fs fs' e So. unfold aggregate_cmd, only_group. destruct gs as [|g [|g' gs]].
  - intros H; injection H as <- <-. apply aon_error. reflexivity.
  - unfold try. destruct (w_read w (view fs) (c_group g)) as [data|x] eqn:R.
    + set (res0 := if w_is_gridded w data then _ else _).
      assert (A : aggregate_result w grid g data res0).
      { unfold aggregate_result, res0. destruct (w_is_gridded w data); [|auto]. destruct (existsb _ grid) eqn:X.
        - left. repeat split; auto. apply existsb_exists in X. destruct X as ([n [s|]] & I & Y); [exists n, s; auto|discriminate].
        - right. left. repeat split; auto. intros (n & s & I). rewrite <- not_true_iff_false in X. apply X. apply existsb_exists. exists (n, Some s). auto. }
      destruct res0 as [d|x]; intros H.
      * eapply aon_save; eauto. cbn. rewrite R. auto.
      * injection H as <- <-. apply aon_error. cbn. rewrite R. auto.
    + intros H; injection H as <- <-. apply aon_error. cbn. rewrite R. auto.
  - intros H; injection H as <- <-. split; [apply nothing_only|]. intros p. reflexivity.
Qed.

Theorem collapse_all : forall w gs dims out fs fs' e, sound fs -> collapse_cmd w gs dims out fs = (fs', e) ->
  all_or_nothing w (group_data w fs gs (collapse_result w dims)) out fs fs' e.
Proof.
  intros w gs dims out fs fs' e So. unfold collapse_cmd, only_group. destruct gs as [|g [|g' gs]].
  - intros H; injection H as <- <-. apply aon_error. reflexivity.
  - unfold try. destruct (w_read w (view fs) (c_group g)) as [data|x] eqn:R.
    + set (res0 := if w_is_gridded w data then _ else _).
      assert (A : collapse_result w dims g data res0) by (unfold collapse_result, res0; destruct (w_is_gridded w data); auto).
      destruct res0 as [d|x]; intros H.
      * eapply aon_save; eauto. cbn. rewrite R. auto.
      * injection H as <- <-. apply aon_error. cbn. rewrite R. auto.
    + intros H; injection H as <- <-. apply aon_error. cbn. rewrite R. auto.
  - intros H; injection H as <- <-. split; [apply nothing_only|]. intros p. reflexivity.
Qed.

Lemma read_groups_spec w fs gs : match read_groups w (view fs) gs with
  | Ok ds => reads_all w fs gs ds
  | Raises e => exists gs1 g gs2 ds, gs = gs1 ++ g :: gs2 /\ reads_all w fs gs1 ds /\ w_read w (view fs) g = Raises e end.
Proof.
  induction gs as [|g gs IH]; cbn [read_groups]; [constructor|]. destruct (w_read w (view fs) g) as [d|e] eqn:R.
  - destruct (read_groups w (view fs) gs) as [ds|e]; [constructor; auto|]. destruct IH as (gs1 & g1 & gs2 & ds & -> & A & B). exists (g :: gs1), g1, gs2, (d :: ds). repeat split; auto. constructor; auto.
  - exists [], g, gs, []. repeat split; auto. constructor.
Qed.
Theorem evaluate_all : forall w gs expr out fs fs' e, sound fs -> evaluate_cmd w gs expr out fs = (fs', e) ->
  all_or_nothing w (many_result w fs gs (fun ds => w_evaluate w ds expr)) out fs fs' e.
Proof.
  intros w gs expr out fs fs' e So. unfold evaluate_cmd, try. pose proof (read_groups_spec w fs gs) as R. destruct (read_groups w (view fs) gs) as [ds|x].
  - destruct (w_evaluate w ds expr) as [d|x] eqn:E; intros H.
    + eapply aon_save; eauto. left. exists ds. auto.
    + injection H as <- <-. apply aon_error. left. exists ds. auto.
  - intros H; injection H as <- <-. apply aon_error. right. destruct R as (gs1 & g & gs2 & ds & A & B & C). exists gs1, g, gs2, ds, x. auto.
Qed.
Theorem stats_all : forall w gs out fs fs' e, sound fs -> stats_cmd w gs (Some out) fs = (fs', e) -> all_or_nothing w (many_result w fs gs (w_stats w)) out fs fs' e.
Proof.
  intros w gs out fs fs' e So. unfold stats_cmd, try. pose proof (read_groups_spec w fs gs) as R. destruct (read_groups w (view fs) gs) as [ds|x].
  - destruct (w_stats w ds) as [d|x] eqn:E; intros H.
    + eapply aon_save; eauto. left. exists ds. auto.
    + injection H as <- <-. apply aon_error. left. exists ds. auto.
  - intros H; injection H as <- <-. apply aon_error. right. destruct R as (gs1 & g & gs2 & ds & A & B & C). exists gs1, g, gs2, ds, x. auto.
Qed.
Theorem stats_quiet : forall w gs fs, fst (stats_cmd w gs None fs) = fs.
Proof. intros. unfold stats_cmd, try. destruct (read_groups _ _ _) as [ds|]; [destruct (w_stats w ds); reflexivity|reflexivity]. Qed.

(** ** Collocation *)
Lemma changes_trans out fs1 fs2 fs3 : (forall p, p <> out -> same_file fs2 out p -> same_file fs1 out p) -> changes_only out fs1 fs2 -> changes_only out fs2 fs3 -> changes_only out fs1 fs3.
Proof. intros H A B p N NS. rewrite B; auto. Qed.

Lemma groups_spec w a s k m : reads_its_files w -> forall gs fs fs' e, sound fs ->
  (forall g p, In g gs -> In p (g_files g) -> p <> ca_output a /\ ~ same_file fs (ca_output a) p) ->
  collocate_groups w s (col_name_of a) k m (other_options a) (ca_output a) gs fs = (fs', e) ->
  changes_only (ca_output a) fs fs' /\
  match e with
  | Done => exists ds, Forall2 (collocated w a fs s k m) gs ds /\ last_result fs (ca_output a) ds (view fs' (ca_output a))
  | Exit1 => False
  | Error x => exists gs1 g gs2 ds, gs = gs1 ++ g :: gs2 /\ Forall2 (collocated w a fs s k m) gs1 ds /\
      ((not_collocated w a fs s k m g x /\ last_result fs (ca_output a) ds (view fs' (ca_output a))) \/
       exists d, collocated w a fs s k m g d /\
         ((w_save w d (ca_output a) = Refused x /\ last_result fs (ca_output a) ds (view fs' (ca_output a))) \/
          exists n, w_save w d (ca_output a) = BrokenOff x n /\ view fs' (ca_output a) = Some (Bytes n)))
  end.
Proof.
  intros RF. set (out := ca_output a). induction gs as [|g gs IH]; intros fs fs' e So Ap; cbn [collocate_groups].
  - intros H; injection H as <- <-. split; [apply nothing_only|]. exists []. split; [constructor|]. left. auto.
  - unfold try at 1. destruct (w_read w (view fs) g) as [data|x] eqn:R.
    2: { intros H; injection H as <- <-. split; [apply nothing_only|]. exists [], g, gs, []. repeat split; auto. left. split; [left; auto|]. left. auto. }
    unfold try. destruct (w_collocated_onto w data s (col_name_of a) k m (other_options a)) as [d|x] eqn:C.
    2: { intros H; injection H as <- <-. split; [apply nothing_only|]. exists [], g, gs, []. repeat split; auto. left. split; [right; eauto|]. left. auto. }
    assert (Cd : collocated w a fs s k m g d) by (exists data; auto).
    destruct (save_data w d out fs) as [fs1 e1] eqn:SV. destruct (save_spec _ _ _ _ _ _ So SV) as (S1 & S2 & S3 & S4).
    destruct e1 as [| |x]; [|contradiction|].
    + intros H. apply IH in H; auto.
      2: { intros g' p Hg Hp. destruct (Ap g' p (or_intror Hg) Hp) as [N NS]. split; auto. }
      destruct H as [H1 H2]. split; [eapply changes_trans; eauto|].
      assert (T : forall g' d', In g' gs -> collocated w a fs1 s k m g' d' -> collocated w a fs s k m g' d').
      { intros g' d' Hg (dt & Rd & Co). exists dt. split; auto. rewrite <- Rd. symmetry. apply RF. intros p Hp. destruct (Ap g' p (or_intror Hg) Hp) as [N NS]. apply S1; auto. }
      assert (T' : forall g' x', In g' gs -> not_collocated w a fs1 s k m g' x' -> not_collocated w a fs s k m g' x').
      { intros g' x' Hg. assert (Eq : w_read w (view fs) g' = w_read w (view fs1) g').
        { apply RF. intros p Hp. destruct (Ap g' p (or_intror Hg) Hp) as [N NS]. symmetry. apply S1; auto. }
        unfold not_collocated. rewrite Eq. auto. }
      assert (F : forall gs0 ds, (forall g', In g' gs0 -> In g' gs) -> Forall2 (collocated w a fs1 s k m) gs0 ds -> Forall2 (collocated w a fs s k m) gs0 ds).
      { intros gs0 ds I F. revert I. induction F; intros I; constructor; [apply T; auto; apply I; left; auto|apply IHF; intros; apply I; right; auto]. }
      assert (L : forall ds c, last_result fs1 out ds c -> last_result fs out (d :: ds) c).
      { intros ds c [[-> ->]|(ds0 & d' & -> & ->)]; right; [exists [], d; split; auto|exists (d :: ds0), d'; auto]. }
      destruct e as [| |x]; [|contradiction|].
      * destruct H2 as (ds & A & B). exists (d :: ds). split; [constructor; auto|]. apply L. exact B.
      * destruct H2 as (gs1 & g1 & gs2 & ds & -> & A & B). exists (g :: gs1), g1, gs2, (d :: ds). split; [reflexivity|].
        split; [constructor; auto; apply F; auto; intros; apply in_or_app; auto|].
        assert (I1 : In g1 (gs1 ++ g1 :: gs2)) by (apply in_or_app; right; left; auto).
        destruct B as [[B1 B2]|(d' & B1 & B2)]; [left; auto|]. right. exists d'. split; [apply T; auto|]. destruct B2 as [[B2 B3]|B2]; [left; auto|right; auto].
    + intros H; injection H as <- <-. split; auto. exists [], g, gs, []. repeat split; auto. right. exists d. split; auto.
      destruct S4 as [[X Y]|X]; [left|right; auto]. split; auto. left. auto.
Qed.

Lemma str_eqb_true_lower s t : str_eqb (lower s) t = true <-> lower s = t.
Proof. apply str_eqb_eq. Qed.
Lemma missing_spec a : meant_or_none a (check_boolean (fst (pop (match ca_collocator a with Some c => snd c | None => [] end) mdfms (Some (match ca_samplevariable a with Some _ => lit "True" | None => lit "False" end))))).
Proof.
  unfold meant_or_none, meant, option_given, pop, truth. cbn [fst].
  assert (O : match ca_collocator a with Some c => dict_get (snd c) mdfms | None => None end = dict_get (match ca_collocator a with Some c => snd c | None => [] end) mdfms) by (destruct (ca_collocator a); reflexivity).
  rewrite O. destruct (dict_get _ mdfms) as [[s|]|].
  - cbn [check_boolean]. destruct (str_eqb (lower s) (lit "true")) eqn:E; [apply str_eqb_eq in E; exact E|]. destruct (str_eqb (lower s) (lit "false")) eqn:E'; [apply str_eqb_eq in E'; exact E'|].
    apply str_eqb_neq in E. apply str_eqb_neq in E'. intros [|]; auto.
  - reflexivity.
  - destruct (ca_samplevariable a); reflexivity.
Qed.

Theorem col_all : forall w a fs fs' e, sound fs -> reads_its_files w -> apart a fs -> col_cmd w a fs = (fs', e) ->
  changes_only (ca_output a) fs fs' /\
  match e with
  | Done => exists s k m ds, sample_of w a fs s /\ kernel_is w a k /\ meant_or_none a m /\ Forall2 (collocated w a fs s k m) (ca_groups a) ds /\ last_result fs (ca_output a) ds (view fs' (ca_output a))
  | Exit1 => False
  | Error x => (changes_nothing fs fs' /\ ((forall s, ~ sample_of w a fs s) \/ forall k, ~ kernel_is w a k)) \/
      exists s k m gs1 g gs2 ds, sample_of w a fs s /\ kernel_is w a k /\ meant_or_none a m /\ ca_groups a = gs1 ++ g :: gs2 /\ Forall2 (collocated w a fs s k m) gs1 ds /\
      ((not_collocated w a fs s k m g x /\ last_result fs (ca_output a) ds (view fs' (ca_output a))) \/
       exists d, collocated w a fs s k m g d /\
         ((w_save w d (ca_output a) = Refused x /\ last_result fs (ca_output a) ds (view fs' (ca_output a))) \/
          exists n, w_save w d (ca_output a) = BrokenOff x n /\ view fs' (ca_output a) = Some (Bytes n)))
  end.
Proof.
  intros w a fs fs' e So RF Ap. unfold col_cmd. unfold try at 1.
  destruct (w_sample w (view fs) (ca_samplefiles a) (ca_samplevariable a) (ca_sampleproduct a)) as [s|x] eqn:Sa.
  2: { intros H; injection H as <- <-. split; [apply nothing_only|]. left. split; [intros p; reflexivity|]. left. intros s Hs. unfold sample_of in Hs. congruence. }
  cbv zeta. pose proof (missing_spec a) as M. set (df := match ca_samplevariable a with Some _ => lit "True" | None => lit "False" end) in *.
  assert (CO : (match ca_collocator a with Some c => c | None => ([], []) end) = (col_name_of a, match ca_collocator a with Some c => snd c | None => [] end)).
  { unfold col_name_of. destruct (ca_collocator a) as [[? ?]|]; reflexivity. }
  rewrite CO. set (co := match ca_collocator a with Some c => snd c | None => [] end) in *.
  assert (PO : pop co mdfms (Some df) = (fst (pop co mdfms (Some df)), other_options a)).
  { unfold pop at 1. cbn. unfold other_options, co. destruct (ca_collocator a); reflexivity. }
  destruct (match ca_kernel a with Some k => k | None => ([], []) end) as [kn ko] eqn:KE. rewrite PO. set (m := check_boolean (fst (pop co mdfms (Some df)))) in *.
  unfold try. destruct (match kn with [] => _ | _ :: _ => _ end) as [k|x] eqn:KK.
  - assert (KI : kernel_is w a k).
    { unfold kernel_is. destruct (ca_kernel a) as [[[|c n] ko']|]; injection KE as <- <-; try (injection KK as <-; reflexivity).
      destruct (w_get_kernel w (c :: n) ko') as [k'|]; [|discriminate]. injection KK as <-. exists k'. auto. }
    intros H. destruct (groups_spec w a s k m RF _ _ _ _ So Ap H) as [A B]. split; auto. destruct e as [| |x]; [|contradiction|].
    + destruct B as (ds & B1 & B2). exists s, k, m, ds. auto.
    + right. destruct B as (gs1 & g & gs2 & ds & B1 & B2 & B3). exists s, k, m, gs1, g, gs2, ds. auto 10.
  - intros H; injection H as <- <-. split; [apply nothing_only|]. left. split; [intros p; reflexivity|]. right. intros k Hk. unfold kernel_is in Hk.
    destruct (ca_kernel a) as [[[|c n] ko']|]; injection KE as <- <-; try discriminate KK. destruct Hk as (k' & E & _). rewrite E in KK. discriminate.
Qed.

Lemma groups_only w s n k m o out gs : forall fs fs' e, sound fs -> collocate_groups w s n k m o out gs fs = (fs', e) -> changes_only out fs fs'.
Proof.
  induction gs as [|g gs IH]; intros fs fs' e So; cbn [collocate_groups]; [intros H; injection H as <- <-; apply nothing_only|].
  unfold try at 1. destruct (w_read w (view fs) g); [|intros H; injection H as <- <-; apply nothing_only].
  unfold try. destruct (w_collocated_onto _ _ _ _ _ _ _) as [d|]; [|intros H; injection H as <- <-; apply nothing_only].
  destruct (save_data w d out fs) as [fs1 e1] eqn:SV. destruct (save_spec _ _ _ _ _ _ So SV) as (S1 & S2 & S3 & S4). destruct e1.
  - intros H. apply IH in H; auto. eapply changes_trans; eauto.
  - intros H; injection H as <- <-. auto.
  - intros H; injection H as <- <-. auto.
Qed.
Lemma command_only w out fs fs' e inputs : sound fs -> command_ran w out fs fs' e inputs -> changes_only out fs fs'.
Proof.
  intros So R. destruct R as [gs l H|gs l H|gs l H|gs l H|gs H|a <- H].
  - apply subset_all in H; [apply H|auto].
  - apply aggregate_all in H; [apply H|auto].
  - apply collapse_all in H; [apply H|auto].
  - apply evaluate_all in H; [apply H|auto].
  - apply stats_all in H; [apply H|auto].
  - unfold col_cmd, try in H. destruct (w_sample _ _ _ _ _); [|injection H as <- <-; apply nothing_only]. cbv zeta in H.
    destruct (match ca_collocator a with Some c => c | None => _ end) as [cn co]. destruct (match ca_kernel a with Some k => k | None => _ end) as [kn ko]. destruct (pop _ _ _) as [gv co'].
    destruct (match kn with [] => _ | _ :: _ => _ end); [|injection H as <- <-; apply nothing_only]. eapply groups_only; eauto.
Qed.

(** ** The output passed the checks on the command line *)
Lemma checked_apart env fs force ext given inputs var out : describes env fs -> validate_output_file env force ext given inputs = Proceed var out ->
  forall p, In p inputs -> f_ino fs p <> None -> p <> out /\ ~ same_file fs out p.
Proof.
  intros [E1 E2] V p Hp Ex. destruct (validate_output_ok _ _ _ _ _ _ _ V) as (_ & N & _). specialize (N p Hp).
  assert (NS : ~ same_file fs out p). { intros SF. apply N. split; [apply E1; destruct SF as (i & A & _); congruence|apply E2; auto]. }
  split; auto. intros ->. apply NS. destruct (f_ino fs out) as [i|] eqn:Q; [exists i; auto|congruence].
Qed.
Lemma checked_kept env fs fs' force ext given inputs var out : describes env fs -> validate_output_file env force ext given inputs = Proceed var out -> changes_only out fs fs' ->
  forall p, In p inputs -> f_ino fs p <> None -> view fs' p = view fs p.
Proof. intros De V C p Hp Ex. destruct (checked_apart _ _ _ _ _ _ _ _ De V p Hp Ex). apply C; auto. Qed.
Theorem inputs_kept : forall w env fs fs' e force ext given inputs var out, sound fs -> describes env fs -> validate_output_file env force ext given inputs = Proceed var out ->
  command_ran w out fs fs' e inputs -> forall p, In p inputs -> f_ino fs p <> None -> view fs' p = view fs p.
Proof. intros. eapply checked_kept; eauto. eapply command_only; eauto. Qed.
End Proofs.
