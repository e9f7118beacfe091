(** Proofs for C48 and C63. *)
From Coq Require Import String.
From Verif Require Import Base PyStr UngrModel RdrModel EvalModel EvalSpec.
From Coq Require Import QArith List.
Import ListNotations.
Open Scope string_scope. Open Scope list_scope. Open Scope nat_scope. Notation length := List.length.

Lemma double_underscore_iff s : double_underscore s = true <-> has_double_underscore s.
Proof.
  unfold has_double_underscore. change (lit "__") with ["_"%char; "_"%char]. induction s as [|a s IH].
  - split; [discriminate|]. intros ([|? ?] & b & E); discriminate.
  - destruct s as [|b s].
    + split; [discriminate|]. intros ([|? [|? ?]] & c & E); discriminate.
    + change (double_underscore (a :: b :: s)) with ((if ascii_dec a "_"%char then if ascii_dec b "_"%char then true else false else false) || double_underscore (b :: s)).
      rewrite orb_true_iff, IH. split.
      * intros [H|(x & y & E)]; [|exists (a :: x), y; rewrite E; reflexivity].
        destruct (ascii_dec a "_"); [|discriminate]. destruct (ascii_dec b "_"); [|discriminate]. subst. exists [], s. reflexivity.
      * intros ([|c x] & y & E); cbn in E.
        -- injection E as -> -> ->. left. reflexivity.
        -- injection E as -> E. right. exists x, y. exact E.
Qed.

Lemma dict_get_set {V} (d : list (str * V)) k v k' : dict_get (dict_set d k v) k' = if str_eqb k k' then Some v else dict_get d k'.
Proof.
  induction d as [|[j w] d IH]; cbn [dict_set dict_get]; auto. destruct (str_eqb j k) eqn:E.
  - apply str_eqb_eq in E. subst. cbn [dict_get]. destruct (str_eqb k k'); reflexivity.
  - cbn [dict_get]. destruct (str_eqb j k') eqn:E'; [|exact IH]. apply str_eqb_eq in E'. subst. rewrite IH || idtac.
    destruct (str_eqb k k') eqn:K; auto. apply str_eqb_eq in K. subst. rewrite str_eqb_refl in E. discriminate.
Qed.

Lemma locals_get objs : names_are_aliases objs (mkNs SAFE_MODULES SAFE_BUILTINS (local_arrays objs)).
Proof.
  intros k a. cbn [ns_locals]. unfold local_arrays.
  set (f := fun d var => dict_set d (alias_of var) (if i_gridded (o_item var) then o_arr var else flattened (o_arr var))).
  induction objs as [|o objs IH] using rev_ind.
  - cbn. split; [discriminate|]. intros ([|? ?] & o & l2 & E & _); discriminate.
  - rewrite fold_left_app. cbn [fold_left]. unfold f at 1. rewrite dict_get_set. destruct (str_eqb (alias_of o) k) eqn:E.
    + apply str_eqb_eq in E. split.
      * intros H. injection H as <-. exists objs, o, []. repeat split; auto.
      * intros (l1 & o1 & l2 & Eq & Ea & Nl & ->). destruct (exists_last (l := o1 :: l2)) as (l3 & o3 & E3); [discriminate|].
        assert (o3 = o). { rewrite E3, app_assoc in Eq. apply app_inj_tail in Eq. destruct Eq; congruence. } subst o3.
        destruct l2 as [|o2 l2].
        { destruct l3 as [|? [|? ?]]; try discriminate E3. injection E3 as ->. reflexivity. }
        exfalso. apply (Nl o); auto. assert (I : In o (o1 :: o2 :: l2)) by (rewrite E3; apply in_or_app; right; left; auto).
        destruct l3 as [|x l3]; [discriminate E3|]. injection E3 as _ E3. rewrite E3. apply in_or_app. right. left. auto.
    + apply str_eqb_neq in E. rewrite IH. split; intros (l1 & o1 & l2 & Eq & Ea & Nl & ->).
      * exists l1, o1, (l2 ++ [o]). subst objs. rewrite <- app_assoc. split; auto. split; auto. split; auto. intros o' Ho. apply in_app_or in Ho. destruct Ho as [Ho|[<-|[]]]; auto.
      * destruct (exists_last (l := o1 :: l2)) as (l3 & o3 & E3); [discriminate|]. rewrite E3, app_assoc in Eq. apply app_inj_tail in Eq. destruct Eq as [Eq <-].
        destruct l3 as [|x l3]; [injection E3 as -> _; congruence|]. cbn in E3. injection E3 as <- ->. exists l1, o1, l3. split; auto. split; auto. split; auto. intros o' Ho. apply Nl. apply in_or_app. auto.
Qed.

Lemma namespace_confined objs : confined objs (mkNs SAFE_MODULES SAFE_BUILTINS (local_arrays objs)).
Proof.
  split; [reflexivity|]. split; [|apply locals_get]. intros f D S. cbn [ns_builtins] in S. unfold dangerous, SAFE_BUILTINS in *.
  assert (H : forallb (fun d => negb (existsb (str_eqb d) SAFE_BUILTINS)) dangerous = true) by (vm_compute; reflexivity).
  rewrite forallb_forall in H. specialize (H f D). apply negb_true_iff in H. rewrite <- not_true_iff_false in H. apply H. apply existsb_exists. exists f. split; auto. apply str_eqb_refl.
Qed.

Lemma fold_left_mul l : forall n, fold_left Nat.mul l n = n * fold_right Nat.mul 1 l.
Proof. induction l as [|m l IH]; intros n; cbn; [lia|]. rewrite IH. lia. Qed.

Lemma reduce_mul_size a : well_formed a -> a_shape a <> [] -> reduce_mul (a_shape a) = Ok (length (a_vals a)).
Proof. unfold well_formed, reduce_mul. intros W N. destruct (a_shape a) as [|n s]; [congruence|]. rewrite fold_left_mul. cbn in W. congruence. Qed.

Theorem evaluate_ok : forall pyeval objs expr output_var units attributes m,
  (forall o, In o objs -> well_formed (o_arr o)) -> (forall ns e a, pyeval ns e = Ok (VArray a) -> well_formed a) ->
  evaluate pyeval objs expr output_var units attributes = Ok m ->
  ~ has_double_underscore expr /\
  exists first rest ns a, objs = first :: rest /\ confined objs ns /\ pyeval ns expr = Ok (VArray a) /\
    a_shape a = a_shape (seen first) /\ m_arr m = a /\ m_coords m = coords_seen first /\ m_gridded m = i_gridded (o_item first) /\
    m_name m = match output_var with Some v => v | None => lit "calculated_variable" end /\ m_units m = match units with Some u => u | None => lit "unknown" end.
Proof.
  intros pyeval objs expr ov un at_ m W P. unfold evaluate. destruct (double_underscore expr) eqn:D; [discriminate|].
  split; [rewrite <- double_underscore_iff; congruence|]. set (ns := mkNs _ _ _) in *. destruct (pyeval ns expr) as [v|e] eqn:E; [|destruct e; discriminate].
  unfold post_process_result in H. cbv zeta in H. destruct objs as [|first rest]; [discriminate|]. exists first, rest, ns.
  destruct (if i_gridded (o_item first) then _ else _) as [sh|e] eqn:Sh; [|discriminate]. destruct v as [a|]; [|discriminate].
  destruct (list_eq_dec _ sh (a_shape a)) as [Ea|]; [|discriminate]. injection H as <-.
  exists a. split; auto. split; [apply namespace_confined|]. split; auto.
  assert (Wf : well_formed (o_arr first)) by (apply W; left; auto). pose proof (P _ _ _ E) as Wa.
  assert (S1 : a_shape a = a_shape (seen first)).
  { unfold seen. destruct (i_gridded (o_item first)); [injection Sh as Sh; congruence|]. destruct (a_shape (o_arr first)) eqn:Ns; [discriminate|].
    rewrite <- Ns in Sh. rewrite reduce_mul_size in Sh by (auto; congruence). injection Sh as Sh. rewrite <- Ea, <- Sh. reflexivity. }
  split; auto. unfold make_new_with_same_coordinates, coords_seen, seen in *. destruct (i_gridded (o_item first)); destruct at_; cbn; repeat split; auto.
  all: unfold flattened; destruct a as [s v]; cbn in *; unfold well_formed in Wa; cbn in Wa; rewrite S1 in Wa; cbn in Wa; rewrite S1; f_equal; f_equal; lia.
Qed.

Theorem evaluate_refuses : forall pyeval objs expr output_var units attributes, has_double_underscore expr -> evaluate pyeval objs expr output_var units attributes = Raises EvaluationError.
Proof. intros. unfold evaluate. apply double_underscore_iff in H. rewrite H. reflexivity. Qed.

Theorem evaluate_confined : forall pyeval1 pyeval2 objs expr output_var units attributes,
  (forall ns, confined objs ns -> pyeval1 ns expr = pyeval2 ns expr) -> evaluate pyeval1 objs expr output_var units attributes = evaluate pyeval2 objs expr output_var units attributes.
Proof. intros. unfold evaluate. rewrite (H _ (namespace_confined objs)). reflexivity. Qed.

Theorem evaluate_complete : forall pyeval first rest expr output_var units attributes,
  ~ has_double_underscore expr -> (forall o, In o (first :: rest) -> well_formed (o_arr o)) -> a_shape (o_arr first) <> [] ->
  exists ns, confined (first :: rest) ns /\
  (forall a, pyeval ns expr = Ok (VArray a) -> a_shape a = a_shape (seen first) -> exists m, evaluate pyeval (first :: rest) expr output_var units attributes = Ok m) /\
  (forall a, pyeval ns expr = Ok (VArray a) -> a_shape a <> a_shape (seen first) -> evaluate pyeval (first :: rest) expr output_var units attributes = Raises EvaluationError) /\
  (forall e, pyeval ns expr = Raises e -> evaluate pyeval (first :: rest) expr output_var units attributes = Raises (match e with NameError | ValueError => EvaluationError | _ => e end)).
Proof.
  intros pyeval first rest expr ov un at_ D W N. exists (mkNs SAFE_MODULES SAFE_BUILTINS (local_arrays (first :: rest))). split; [apply namespace_confined|].
  assert (DU : double_underscore expr = false) by (apply not_true_iff_false; rewrite double_underscore_iff; exact D).
  unfold evaluate. rewrite DU.
  assert (S1 : (if i_gridded (o_item first) then Ok (a_shape (o_arr first)) else match reduce_mul (a_shape (o_arr first)) with Ok n => Ok [n] | Raises e => Raises e end) = Ok (a_shape (seen first))).
  { unfold seen. destruct (i_gridded (o_item first)); auto. rewrite reduce_mul_size by (auto; apply W; left; auto). reflexivity. }
  split; [|split].
  - intros a E S. rewrite E. unfold post_process_result. cbv zeta. rewrite S1. destruct (list_eq_dec _ _ _); [eexists; reflexivity|congruence].
  - intros a E S. rewrite E. unfold post_process_result. cbv zeta. rewrite S1. destruct (list_eq_dec _ _ _); [congruence|reflexivity].
  - intros e E. rewrite E. destruct e; reflexivity.
Qed.

Theorem evaluate_attributes : forall pyeval objs expr output_var units at_ m, evaluate pyeval objs expr output_var units (Some at_) = Ok m -> NoDup (map fst at_) ->
  forall k v, dict_get (m_attributes m) k = Some v <-> In (k, v) at_.
Proof.
  intros pyeval objs expr ov un at_ m H ND. unfold evaluate in H. destruct (double_underscore expr); [discriminate|].
  destruct (pyeval _ expr) as [r|e]; [|destruct e; discriminate]. unfold post_process_result in H. cbv zeta in H. destruct objs as [|f r']; [discriminate|].
  destruct (if i_gridded (o_item f) then _ else _) as [sh|]; [|discriminate]. destruct r as [a|]; [|discriminate]. destruct (list_eq_dec _ _ _); [|discriminate].
  injection H as <-. unfold make_new_with_same_coordinates, add_attributes. cbn [m_attributes].
  match goal with |- context [fold_left _ _ (m_attributes ?x)] => assert (M0 : m_attributes x = []) by (destruct (i_gridded (o_item f)); reflexivity); rewrite M0; clear M0 end.
  clear -ND. induction at_ as [|[k0 v0] l IH] using rev_ind; intros k v.
  - cbn. split; [discriminate|tauto].
  - rewrite map_app in ND. cbn in ND. apply NoDup_remove in ND. rewrite app_nil_r in ND. destruct ND as [ND NI]. rewrite fold_left_app. cbn [fold_left fst snd]. rewrite dict_get_set. rewrite in_app_iff. cbn [In].
    destruct (str_eqb k0 k) eqn:E.
    + apply str_eqb_eq in E. subst. split; [intros H; injection H as <-; auto|]. intros [H|[H|[]]]; [|congruence]. exfalso. apply NI. apply in_map_iff. exists (k, v). auto.
    + apply str_eqb_neq in E. rewrite IH by auto. split; [auto|]. intros [H|[H|[]]]; auto. congruence.
Qed.
