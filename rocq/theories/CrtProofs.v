From Verif Require Import Base PyStr FileListModel FileListProofs QBase DateModel UngrModel UngrProofs CrtModel CrtSpec.
From Coq Require Import List. Import ListNotations. Open Scope list_scope.

Lemma std_eqb_iff a b : std_eqb a b = true <-> a = b.
Proof. destruct a as [a|], b as [b|]; cbn [std_eqb]; try (split; congruence). rewrite str_eqb_eq. split; congruence. Qed.
Lemma upper_twice a : upper (upper a) = upper a.
Proof. unfold upper. rewrite map_map. apply map_ext. intros [[] [] [] [] [] [] [] []]; reflexivity. Qed.
Lemma named_iff c n : k_name c = n <-> named c n.
Proof.
  unfold k_name, c_name, named, unknown. destruct c as [[std long var ax sh p] at_]. cbn [k_coord c_std c_long c_var].
  assert (K : match long with a :: l => a :: l | [] => match var with a :: l => a :: l | [] => lit "unknown" end end = n <->
    ((long = n /\ n <> []) \/ (long = [] /\ ((var = n /\ n <> []) \/ (var = [] /\ n = lit "unknown"))))).
  { destruct long as [|l long].
    - destruct var as [|v var].
      + split; [intros <-; right; split; auto; right; auto|]. intros [[<- X]|[_ [[<- X]|[_ ->]]]]; [congruence|congruence|reflexivity].
      + split; [intros <-; right; split; auto; left; split; [auto|discriminate]|]. intros [[<- X]|[_ [[<- X]|[X _]]]]; [congruence|reflexivity|discriminate].
    - split; [intros <-; left; split; [auto|discriminate]|]. intros [[<- _]|[X _]]; [reflexivity|discriminate]. }
  destruct std as [[|s std]|].
  - cbv iota; rewrite K. split; [intros H; right; auto|]. intros [[[= <-] X]|[_ H]]; [congruence|exact H].
  - split; [intros <-; left; split; [auto|discriminate]|]. intros [[[= ->] _]|[[H|H] _]]; [reflexivity|discriminate|discriminate].
  - cbv iota; rewrite K. split; [intros H; right; auto|]. intros [[H _]|[_ H]]; [discriminate|exact H].
Qed.
Definition passes (q : query) (c : acoord) : bool :=
  match w_name q with Some (Name n) => str_eqb (k_name c) n | Some (Like o) => same_coord c o | None => true end &&
  match w_std q with Some s => std_eqb (c_std (k_coord c)) (Some s) | None => true end &&
  match w_long q with Some s => str_eqb (c_long (k_coord c)) s | None => true end &&
  match w_axis q with Some s => str_eqb (c_axis (k_coord c)) (upper s) | None => true end &&
  match w_var q with Some s => str_eqb (c_var (k_coord c)) s | None => true end &&
  match w_attrs q with Some (Mapping l) => forallb (has_attribute c) l | _ => true end.
Lemma filter_true {A} (l : list A) : filter (fun _ => true) l = l.
Proof. induction l; cbn; congruence. Qed.
Lemma filter_and {A} (f g : A -> bool) l : filter f (filter g l) = filter (fun x => f x && g x) l.
Proof. induction l as [|a l IH]; [reflexivity|]. cbn [filter]. destruct (g a) eqn:G; cbn [filter]; destruct (f a); rewrite ?IH; cbn [andb]; auto. Qed.
Definition test (f : option (acoord -> bool)) (c : acoord) : bool := match f with Some f => f c | None => true end.
Lemma narrow_items all r f : items all (narrow all r f) = filter (test f) (items all r).
Proof. destruct f; cbn [narrow items test]; [reflexivity|]. symmetry. apply filter_true. Qed.
Lemma narrow_itself all r f : narrow all r f = Itself <-> r = Itself /\ f = None.
Proof. destruct f; cbn [narrow]; split; try intros [? ?]; try congruence; auto. Qed.
Lemma get_coords_items all q : readable q -> exists r, get_coords all q = Ok r /\ items all r = filter (passes q) all.
Proof.
  intros R. unfold get_coords. destruct q as [nm sd lg at_ ax vr]. unfold readable in R. cbn [w_name w_std w_long w_attrs w_axis w_var] in *.
  destruct at_ as [[l|]|]; [|congruence|]; cbn [bind]; eexists; (split; [reflexivity|]); rewrite ?narrow_items; rewrite ?filter_and; cbn [items]; apply filter_ext; intros c; unfold passes; cbn [w_name w_std w_long w_attrs w_axis w_var];
  destruct nm as [[n|o]|], sd, lg, ax, vr; cbn [test option_map]; repeat match goal with |- context [str_eqb ?a ?b] => generalize (str_eqb a b); intro | |- context [std_eqb ?a ?b] => generalize (std_eqb a b); intro | |- context [same_coord ?a ?b] => generalize (same_coord a b); intro | |- context [forallb ?a ?b] => generalize (forallb a b); intro end;
  repeat match goal with b : bool |- _ => destruct b end; reflexivity.
Qed.
Lemma has_attribute_iff c k v : NoDup (map fst (k_attrs c)) -> (has_attribute c (k, v) = true <-> In (k, v) (k_attrs c)).
Proof.
  unfold has_attribute. cbn [fst snd]. generalize (k_attrs c). intros l ND. induction l as [|[k' v'] l IH]; cbn [dict_get]; [split; [discriminate|contradiction]|].
  inversion ND as [|? ? N1 N2]; subst. destruct (str_eq_dec k' k) as [->|Ne].
  - rewrite str_eqb_eq. split; [intros ->; left; auto|]. intros [E|I]; [congruence|]. destruct N1. apply (in_map fst) in I. exact I.
  - rewrite IH by auto. split; [right; auto|]. intros [E|I]; [congruence|auto].
Qed.
Lemma passes_meets q c : made c -> readable q -> (passes q c = true <-> meets q c).
Proof.
  intros [[a A] ND] R. unfold passes, meets, asked. rewrite !andb_true_iff.
  assert (O : forall {B} (o : option B) (f : B -> bool) (P : B -> Prop), (forall b, f b = true <-> P b) -> (match o with Some b => f b | None => true end = true <-> forall b, o = Some b -> P b)).
  { intros B o f P H. destruct o as [b|]; [rewrite H; split; [intros X b' [= <-]; auto|intros X; auto]|split; [discriminate|auto]]. }
  assert (N : match w_name q with Some (Name n) => str_eqb (k_name c) n | Some (Like o) => same_coord c o | None => true end = true <->
    forall w, w_name q = Some w -> match w with Name n => named c n | Like o => c_std (k_coord c) = c_std (k_coord o) /\ c_std (k_coord o) <> Some [] end).
  { destruct (w_name q) as [[n|o]|].
    - rewrite str_eqb_eq, named_iff. split; [intros X w [= <-]; auto|intros X; apply (X (Name n)); auto].
    - unfold same_coord, coord_eq. rewrite andb_true_iff, negb_true_iff, std_eqb_iff. assert (E : std_eqb (c_std (k_coord o)) (Some []) = false <-> c_std (k_coord o) <> Some []).
      { rewrite <- Bool.not_true_iff_false, std_eqb_iff. tauto. } rewrite E. split; [intros [X Y] w [= <-]; split; auto|intros X; specialize (X (Like o) eq_refl); cbn in X; split; [symmetry|]; tauto].
    - split; [discriminate|auto]. }
  assert (T : match w_attrs q with Some (Mapping l) => forallb (has_attribute c) l | _ => true end = true <-> forall t, w_attrs q = Some t -> exists l, t = Mapping l /\ forall k v, In (k, v) l -> In (k, v) (k_attrs c)).
  { unfold readable in R. destruct (w_attrs q) as [[l|]|]; [|congruence|split; [discriminate|auto]]. rewrite forallb_forall. split.
    - intros X t [= <-]. exists l. split; auto. intros k v I. apply has_attribute_iff; auto.
    - intros X [k v] I. destruct (X _ eq_refl) as (l' & [= <-] & H). apply has_attribute_iff; auto. }
  rewrite N, T, !(O _ _ _ _ (fun s => std_eqb_iff _ (Some s))), !(O _ _ _ _ (fun s => str_eqb_eq _ s)).
  assert (AX : match w_axis q with Some s => str_eqb (c_axis (k_coord c)) (upper s) | None => true end = true <-> forall s, w_axis q = Some s -> same_letters (c_axis (k_coord c)) s).
  { destruct (w_axis q) as [s|]; [|split; [discriminate|auto]]. rewrite str_eqb_eq. unfold same_letters. rewrite A, upper_twice. split; [intros X s' [= <-]; auto|intros X; apply X; auto]. }
  rewrite AX. tauto.
Qed.
Theorem coords_those all q : Forall made all -> readable q -> exists r, get_coords all q = Ok r /\ those (meets q) all (items all r).
Proof.
  intros M R. destruct (get_coords_items all q R) as (r & E & I). exists r. split; auto. exists (passes q). split; [|auto]. intros c Hc. apply passes_meets; auto. rewrite Forall_forall in M. auto.
Qed.
Theorem coords_unreadable all q : ~ readable q -> get_coords all q = Raises ValueError.
Proof. unfold readable, get_coords. intros H. destruct (w_attrs q) as [[l|]|]; [destruct H; discriminate|reflexivity|destruct H; discriminate]. Qed.
Theorem coords_itself all q : get_coords all q = Ok Itself <-> no_criteria q.
Proof.
  unfold no_criteria, nothing_asked, get_coords. destruct q as [nm sd lg at_ ax vr]. cbn [w_name w_std w_long w_attrs w_axis w_var]. split.
  - destruct nm as [[n|o]|], sd, lg, at_ as [[l|]|], ax, vr; cbn [option_map narrow bind]; intros H; try discriminate H; reflexivity.
  - intros [= -> -> -> -> -> ->]. reflexivity.
Qed.

(** ** One coordinate *)
Lemma filter_only {A} (P : A -> Prop) (f : A -> bool) l x : (forall y, In y l -> (f y = true <-> P y)) -> only P l x -> filter f l = [x].
Proof.
  intros H (a & b & -> & Px & Ha & Hb). assert (Z : forall c, Forall (fun y => ~ P y) c -> (forall y, In y c -> In y (a ++ x :: b)) -> filter f c = []).
  { intros c F S_. induction c as [|y c IH]; [reflexivity|]. inversion F as [|? ? F1 F2]; subst. cbn [filter]. destruct (f y) eqn:E; [apply H in E; [contradiction|apply S_; left; auto]|]. apply IH; auto. intros z Hz. apply S_. right. auto. }
  rewrite filter_app. cbn [filter]. rewrite (Z a Ha) by (intros; apply in_or_app; auto). rewrite (Z b Hb) by (intros; apply in_or_app; right; right; auto).
  assert (E : f x = true) by (apply H; [apply in_or_app; right; left; auto|auto]). rewrite E. reflexivity.
Qed.
Lemma filter_none {A} (P : A -> Prop) (f : A -> bool) l : (forall y, In y l -> (f y = true <-> P y)) -> none P l -> filter f l = [].
Proof. intros H F. induction l as [|y l IH]; [reflexivity|]. inversion F as [|? ? F1 F2]; subst. cbn [filter]. destruct (f y) eqn:E; [apply H in E; [contradiction|left; auto]|]. apply IH; auto. intros z Hz. apply H. right. auto. Qed.
Lemma filter_several {A} (P : A -> Prop) (f : A -> bool) l : (forall y, In y l -> (f y = true <-> P y)) -> several P l -> exists x y r, filter f l = x :: y :: r.
Proof.
  intros H (a & x & b & y & c & -> & Px & Py). assert (Ex : f x = true) by (apply H; auto; apply in_or_app; right; left; auto). assert (Ey : f y = true) by (apply H; auto; apply in_or_app; right; right; apply in_or_app; right; left; auto).
  rewrite filter_app. cbn [filter]. rewrite Ex, filter_app. cbn [filter]. rewrite Ey. destruct (filter f a) as [|u [|v r]]; cbn [app]; [|destruct (filter f b); cbn [app]; eauto|eauto].
  destruct (filter f b); cbn [app]; eauto.
Qed.
Section One.
Variables (all : list acoord) (q : query).
Hypothesis M : Forall made all.
Hypothesis R : readable q.
Lemma passes_all c : In c all -> (passes q c = true <-> meets q c).
Proof. intros H. apply passes_meets; auto. rewrite Forall_forall in M. auto. Qed.
Theorem coord_only c : only (meets q) all c -> get_coord all q = Ok c.
Proof. intros H. destruct (get_coords_items all q R) as (r & E & I). unfold get_coord. rewrite E. cbn [bind]. rewrite I, (filter_only _ _ _ _ passes_all H). reflexivity. Qed.
Theorem coord_several : several (meets q) all -> get_coord all q = Raises CoordinateNotFoundError.
Proof. intros H. destruct (get_coords_items all q R) as (r & E & I). unfold get_coord. rewrite E. cbn [bind]. rewrite I. destruct (filter_several _ _ _ passes_all H) as (x & y & s & ->). reflexivity. Qed.
Lemma coord_none : none (meets q) all -> get_coord all q = bind (by_standard_name all (w_name q)) (fun l => match l with [c] => Ok c | _ => Raises CoordinateNotFoundError end).
Proof. intros H. destruct (get_coords_items all q R) as (r & E & I). unfold get_coord. rewrite E. cbn [bind]. rewrite I, (filter_none _ _ _ passes_all H). reflexivity. Qed.
Lemma std_all n c : In c all -> (std_eqb (c_std (k_coord c)) (Some n) = true <-> standard n c).
Proof. intros _. apply std_eqb_iff. Qed.
Theorem coord_by_standard n c : w_name q = Some (Name n) -> none (meets q) all -> only (standard n) all c -> get_coord all q = Ok c.
Proof. intros W H O. rewrite (coord_none H), W. cbn [by_standard_name bind]. rewrite (filter_only _ _ _ _ (std_all n) O). reflexivity. Qed.
Theorem coord_not_named n : w_name q = Some (Name n) -> none (meets q) all -> none (standard n) all \/ several (standard n) all -> get_coord all q = Raises CoordinateNotFoundError.
Proof.
  intros W H O. rewrite (coord_none H), W. cbn [by_standard_name bind]. destruct O as [O|O]; [rewrite (filter_none _ _ _ (std_all n) O); reflexivity|]. destruct (filter_several _ _ _ (std_all n) O) as (x & y & s & ->). reflexivity.
Qed.
Theorem coord_like_missing o : w_name q = Some (Like o) -> none (meets q) all -> all <> [] -> get_coord all q = Raises AttributeError.
Proof. intros W H N. rewrite (coord_none H), W. cbn [by_standard_name]. destruct all; [congruence|reflexivity]. Qed.
Theorem coord_unnamed_missing : w_name q = None -> none (meets q) all -> List.length all <> 1 -> get_coord all q = Raises CoordinateNotFoundError.
Proof. intros W H N. rewrite (coord_none H), W. cbn [by_standard_name bind]. destruct all as [|a [|b l]]; auto. destruct N. reflexivity. Qed.
Theorem coord_unnamed_single c : w_name q = None -> all = [c] -> get_coord all q = Ok c.
Proof.
  intros W H. destruct (get_coords_items all q R) as (r & E & I). unfold get_coord. rewrite E. cbn [bind]. rewrite I, H, W. cbn [filter by_standard_name]. destruct (passes q c); reflexivity.
Qed.
End One.
