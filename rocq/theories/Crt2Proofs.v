From Verif Require Import Base PyStr FileListModel QBase DateModel UngrModel UngrProofs CrtModel CrtSpec CrtProofs.
From Coq Require Import List. Import ListNotations. Open Scope list_scope.

Definition std_query (n : str) : query := mkQuery None (Some n) None None None None.
Lemma meets_std n c : meets (std_query n) c <-> standard n c.
Proof.
  unfold meets, asked, std_query, standard. cbn [w_name w_std w_long w_attrs w_axis w_var]. split; [intros (_ & H & _); auto|]. intros H. repeat split; try discriminate. intros a [= <-]. auto.
Qed.
Lemma meets_like n o c : c_std (k_coord o) = Some n -> n <> [] -> (meets (like o) c <-> standard n c).
Proof.
  unfold meets, asked, like, standard. cbn [w_name w_std w_long w_attrs w_axis w_var]. intros E N. split; [intros (H & _); destruct (H _ eq_refl); congruence|].
  intros H. split; [|repeat split; discriminate]. intros w [= <-]. split; congruence.
Qed.
Lemma only_iff {A} (P Q : A -> Prop) l x : (forall y, P y <-> Q y) -> only P l x -> only Q l x.
Proof.
  intros H (a & b & E & Px & Fa & Fb). exists a, b. split; auto. split; [apply H; auto|]. rewrite Forall_forall in Fa, Fb. split; rewrite Forall_forall; intros y Hy; rewrite <- H; auto.
Qed.
Theorem coord_like all c n : Forall made all -> c_std (k_coord c) = Some n -> n <> [] -> forall c', only (standard n) all c' -> get_coord all (like c) = Ok c'.
Proof. intros M E N c' O. apply coord_only; auto; [discriminate|]. eapply only_iff; [|exact O]. intros y. symmetry. apply meets_like; auto. Qed.
Lemma decide_one {A} (P : A -> Prop) (l : list A) : (forall x, In x l -> P x \/ ~ P x) -> none P l \/ (exists x, only P l x) \/ several P l.
Proof.
  induction l as [|x l IH]; intros D; [left; constructor|]. assert (D' : forall y, In y l -> P y \/ ~ P y) by (intros; apply D; right; auto). destruct (D x (or_introl eq_refl)) as [H|H].
  - right. destruct (IH D') as [N|[(y & a & b & -> & Py & _)|(a & y & b & z & c & -> & Py & _)]].
    + left. exists x, [], l. split; [reflexivity|]. split; [exact H|]. split; [constructor|exact N].
    + right. exists [], x, a, y, b. auto.
    + right. exists [], x, a, y, (b ++ z :: c). auto.
  - destruct (IH D') as [N|[(y & a & b & -> & Py & Fa & Fb)|(a & y & b & z & c & -> & Py & Pz)]].
    + left. constructor; auto.
    + right. left. exists y, (x :: a), b. repeat split; auto.
    + right. right. exists (x :: a), y, b, z, c. auto.
Qed.
Lemma std_dec n (c : acoord) : standard n c \/ ~ standard n c.
Proof. unfold standard. destruct (std_eqb (c_std (k_coord c)) (Some n)) eqn:E; [left; apply std_eqb_iff; auto|right; intros H; apply std_eqb_iff in H; congruence]. Qed.
Theorem standard_found all : Forall made all -> List.length all <> 1 -> exists outs, standard_coords all = Ok outs /\
  Forall2 (fun n o => forall c, o = Some c <-> only (standard n) all c) standard_names outs.
Proof.
  intros M L. unfold standard_coords. induction standard_names as [|n l IH]; [exists []; split; [reflexivity|constructor]|]. destruct IH as (outs & E & F). cbn [map_res]. rewrite E.
  change (mkQuery None (Some n) None None None None) with (std_query n). assert (R : readable (std_query n)) by discriminate.
  destruct (decide_one (standard n) all (fun x _ => std_dec n x)) as [H|[(c & H)|H]].
  - assert (H' : none (meets (std_query n)) all) by (unfold none in *; rewrite Forall_forall in *; intros y Hy; rewrite meets_std; auto). rewrite (coord_unnamed_missing all _ M R eq_refl H' L). cbn [bind].
    eexists. split; [reflexivity|]. constructor; auto. intros c. split; [discriminate|]. intros (a & b & -> & Pc & _). unfold none in H. rewrite Forall_forall in H. destruct (H c); [apply in_or_app; right; left|]; auto.
  - assert (H' : only (meets (std_query n)) all c) by (eapply only_iff; [|exact H]; intros y; symmetry; apply meets_std). rewrite (coord_only all _ M R c H'). cbn [bind]. eexists. split; [reflexivity|]. constructor; auto.
    intros c'. split; [intros [= <-]; auto|]. intros H2. pose proof (filter_only _ _ _ _ (std_all all n) H) as X. pose proof (filter_only _ _ _ _ (std_all all n) H2) as Y. rewrite X in Y. congruence.
  - assert (H' : several (meets (std_query n)) all) by (destruct H as (a & x & b & y & c & E2 & Px & Py); exists a, x, b, y, c; rewrite !meets_std; auto). rewrite (coord_several all _ M R H'). cbn [bind].
    eexists. split; [reflexivity|]. constructor; auto. intros c. split; [discriminate|]. intros H2. destruct (filter_several _ _ _ (std_all all n) H) as (x & y & r & X). pose proof (filter_only _ _ _ _ (std_all all n) H2) as Y. rewrite X in Y. discriminate.
Qed.
Theorem single_every c : standard_coords [c] = Ok [Some c; Some c; Some c; Some c; Some c].
Proof.
  unfold standard_coords, standard_names. assert (K : forall n, get_coord [c] (mkQuery None (Some n) None None None None) = Ok c) by (intros n; apply coord_unnamed_single; auto; discriminate).
  cbn [map_res]. rewrite !K. reflexivity.
Qed.
(** appended to what was given out *)
Theorem shared all c : Forall (fun x => c_std (k_coord x) <> c_std (k_coord c)) all -> forall r, get_coords all nothing_asked = Ok r -> append_to all r c = Ok (all ++ [c], all ++ [c]).
Proof.
  intros F r H. assert (E : r = Itself) by (rewrite (proj2 (coords_itself all nothing_asked) eq_refl) in H; congruence). subst r. cbn [append_to].
  replace (existsb (same_coord c) all) with false; auto. symmetry. apply Bool.not_true_is_false. intros X. apply existsb_exists in X. destruct X as (x & I & X). rewrite Forall_forall in F. apply (F x I).
  unfold same_coord, coord_eq in X. apply andb_true_iff in X. destruct X as [X _]. apply std_eqb_iff in X. exact X.
Qed.
Theorem not_shared all q c : ~ no_criteria q -> forall r, get_coords all q = Ok r -> append_to all r c = Ok (all, items all r ++ [c]).
Proof. intros N r H. destruct r as [|l]; [|reflexivity]. apply coords_itself in H. contradiction. Qed.

(** the searches of the other areas (names, standard names, axis and variable name only) are this one *)
Definition older (q : criteria) : query := mkQuery (option_map Name (q_name q)) (q_std q) None None (q_axis q) (q_var q).
Theorem older_search all q : (exists r, get_coords all (older q) = Ok r /\ map k_coord (items all r) = UngrModel.get_coords (map k_coord all) q) /\
  (forall c, get_coord all (older q) = Ok c -> UngrModel.get_coord (map k_coord all) q = Ok (k_coord c)) /\ (forall e, get_coord all (older q) = Raises e -> UngrModel.get_coord (map k_coord all) q = Raises e).
Proof.
  assert (R : readable (older q)) by discriminate. destruct (get_coords_items all (older q) R) as (r & E & I).
  assert (F : forall (f : acoord -> bool) (g : coord -> bool), (forall c, f c = g (k_coord c)) -> map k_coord (filter f all) = filter g (map k_coord all)).
  { intros f g H. clear E I. induction all as [|c l IH]; [reflexivity|]. cbn [filter map]. rewrite <- H. destruct (f c); cbn [map]; rewrite IH; auto. }
  assert (G : map k_coord (items all r) = UngrModel.get_coords (map k_coord all) q).
  { rewrite I. unfold UngrModel.get_coords. apply F. intros c. unfold passes, matches, older, k_name. destruct q as [[n|] [s|] [a|] [v|]]; cbn [w_name w_std w_long w_attrs w_axis w_var q_name q_std q_axis q_var option_map];
    rewrite ?andb_true_r; reflexivity. }
  split; [exists r; auto|]. unfold get_coord, UngrModel.get_coord. rewrite E. cbn [bind]. rewrite <- G.
  assert (O : exists l, match items all r with [] => by_standard_name all (w_name (older q)) | l => Ok l end = Ok l /\ map k_coord l = match map k_coord (items all r) with [] => UngrModel.get_coords (map k_coord all) (mkCrit None (q_name q) None None) | cs => cs end).
  { destruct (items all r) as [|x l]; [|exists (x :: l); split; reflexivity]. destruct q as [[n|] s a v]; cbn [older w_name q_name option_map by_standard_name]; eexists; (split; [reflexivity|]); cbn [map].
    - apply F. intros c. unfold matches. cbn [q_name q_std q_axis q_var]. rewrite ?andb_true_r. reflexivity.
    - unfold UngrModel.get_coords. rewrite <- (filter_true all) at 1. apply F. reflexivity. }
  destruct O as (l & -> & EL). rewrite <- EL. cbn [bind]. destruct l as [|c [|c' l]]; cbn [map]; split; intros x [= <-]; reflexivity.
Qed.
