From Verif Require Import Base PyStr QBase DateModel FileListModel UngrModel UngrSpec UngrProofs HavModel PtModel PtSpec.
From Coq Require Import Lia.
Open Scope list_scope. Open Scope nat_scope.

(** ** From a list of points to data and back *)
Definition col (l0 : point) (l : list point) (nf : str * (point -> option Q)) : list coord :=
  match snd nf l0 with Some _ => [mkCoord (Some (fst nf)) [] [] [] [length l] (map (snd nf) l)] | None => [] end.
Definition cols (l0 : point) (nfs : list (str * (point -> option Q))) (l : list point) : list coord := flat_map (col l0 l) nfs.
Definition keeps (l0 : point) (nfs : list (str * (point -> option Q))) (p : point) : bool :=
  forallb (fun nf : str * (point -> option Q) => match snd nf l0 with Some _ => negb (is_missing (snd nf p)) | None => true end) nfs.
Definition five : list (str * (point -> option Q)) :=
  [(lit "latitude", p_lat); (lit "longitude", p_lon); (lit "air_pressure", p_pres); (lit "altitude", p_alt); (lit "time", p_time)].

Lemma compress_map {A B} (k : A -> bool) (f : A -> B) l : compress (map (fun p => negb (k p)) l) (map f l) = map f (filter k l).
Proof. unfold compress. induction l as [|x l IH]; [reflexivity|]. cbn [map combine filter fst]. rewrite negb_involutive. destruct (k x); cbn [map snd]; rewrite IH; reflexivity. Qed.
Lemma cols_len l0 nfs l : Forall (fun c => length (c_points c) = length l) (cols l0 nfs l).
Proof. apply Forall_forall. intros c H. apply in_flat_map in H. destruct H as (nf & _ & H). unfold col in H. destruct (snd nf l0); [|contradiction]. destruct H as [<-|[]]. apply map_length. Qed.
Lemma cols_missing l0 nfs l i p : nth_error l i = Some p -> existsb (fun c => is_missing (nth i (c_points c) None)) (cols l0 nfs l) = negb (keeps l0 nfs p).
Proof.
  intros H. induction nfs as [|nf nfs IH]; [reflexivity|]. unfold cols in *. cbn [flat_map]. rewrite existsb_app, IH. unfold keeps. cbn [forallb]. rewrite negb_andb. f_equal.
  unfold col. destruct (snd nf l0); [|reflexivity]. cbn [existsb c_points]. rewrite orb_false_r, negb_involutive. f_equal.
  erewrite nth_error_nth; [reflexivity|]. rewrite nth_error_map, H. reflexivity.
Qed.
Lemma cols_filter l0 nfs l k : map (fun c => let p := compress (map (fun p => negb (k p)) l) (c_points c) in set_points c [length p] p) (cols l0 nfs l) = cols l0 nfs (filter k l).
Proof.
  unfold cols. induction nfs as [|nf nfs IH]; [reflexivity|]. cbn [flat_map]. rewrite map_app, IH. f_equal. unfold col. destruct (snd nf l0); [|reflexivity].
  cbn [map c_points]. rewrite compress_map. unfold set_points. cbn. rewrite map_length. reflexivity.
Qed.
Lemma post_points l0 nfs l (g : point -> option Q) :
  post_process (mkU (cols l0 nfs l) [length l] (map g l)) = let m := filter (keeps l0 nfs) l in Ok (mkU (cols l0 nfs m) [length m] (map g m)).
Proof.
  unfold post_process. cbn [u_values u_coords]. rewrite map_length. destruct (missing_mask_spec _ _ (cols_len l0 nfs l)) as (mask & E & L & N). rewrite E. cbn [bind].
  assert (M : mask = map (fun p => negb (keeps l0 nfs p)) l).
  { apply (nth_ext _ _ false false); [rewrite map_length; auto|]. intros i Hi. rewrite L in Hi. rewrite N by auto. destruct (nth_error l i) as [p|] eqn:P; [|apply nth_error_None in P; lia].
    rewrite (cols_missing l0 nfs l i p P). symmetry. apply nth_error_nth. rewrite nth_error_map, P. reflexivity. }
  subst mask. destruct (existsb (fun b => b) _) eqn:X.
  - rewrite cols_filter, compress_map, map_length. reflexivity.
  - assert (F : filter (keeps l0 nfs) l = l).
    { apply filter_all. intros p Hp. destruct (keeps l0 nfs p) eqn:K; auto. rewrite <- X. apply existsb_exists. exists true. split; auto. apply in_map_iff. exists p. rewrite K. auto. }
    cbv zeta. rewrite F. reflexivity.
Qed.
Lemma keeps_five l0 p : keeps l0 five p = has_coordinates_of l0 p.
Proof.
  unfold keeps, five, has_coordinates_of. cbn [forallb snd]. rewrite andb_true_r.
  assert (E : forall a b : option Q, match a, b with Some _, None => false | _, _ => true end = match a with Some _ => negb (is_missing b) | None => true end) by (intros [?|] [?|]; reflexivity).
  rewrite !E. repeat match goal with |- context [match ?a with Some _ => negb ?b | None => true end] => let H := fresh "u" in generalize (match a with Some _ => negb b | None => true end); intro H end.
  destruct u, u0, u1, u2, u3; reflexivity.
Qed.
Lemma columns_five l0 l : let c f := match f l0 with Some _ => Some (map f (l0 :: l)) | None => None end in
  point_coord (lit "latitude") (c p_lat) ++ point_coord (lit "longitude") (c p_lon) ++ point_coord (lit "air_pressure") (c p_pres) ++ point_coord (lit "altitude") (c p_alt) ++ point_coord (lit "time") (c p_time)
  = cols l0 five (l0 :: l).
Proof.
  cbv zeta. unfold cols, five. cbn [flat_map]. rewrite app_nil_r. unfold col. cbn [fst snd].
  repeat (f_equal; try (match goal with |- context [match ?x with Some _ => _ | None => _ end] => destruct x end; unfold point_coord; rewrite ?map_length; reflexivity)).
Qed.
Lemma flattened_five l0 m : p_lat l0 <> None -> p_lon l0 <> None ->
  coords_flattened (cols l0 five m) = map (fun f : point -> option Q => match f l0 with Some _ => Some (map f m) | None => None end) [p_lat; p_lon; p_alt; p_pres; p_time].
Proof.
  intros A B. unfold cols, five. cbn [flat_map map]. unfold col. cbn [fst snd]. destruct (p_lat l0); [|congruence]. destruct (p_lon l0); [|congruence].
  destruct (p_pres l0), (p_alt l0), (p_time l0); reflexivity.
Qed.
Lemma vals_ok l : Forall number_first l -> vals l = Ok (map one_value l).
Proof.
  unfold vals. induction 1 as [|p l H Hl IH]; [reflexivity|]. assert (E : val0 p = Ok (one_value p)) by (unfold val0, one_value, number_first in *; destruct (p_val p) as [|[v|x] r]; try contradiction; reflexivity).
  cbn [map_res]. rewrite E. cbn [bind]. rewrite IH. reflexivity.
Qed.
Theorem from_points_ok first rest : let l := first :: rest in Forall number_first l ->
  exists d u, from_points_array l = Ok (d, u) /\ combine (map c_std (u_coords d)) u = map (fun nu : str * str => (Some (fst nu), snd nu)) (named_coordinates first) /\
    length (u_coords d) = length u /\ aligned d /\ u_values d = map one_value l /\ d = mkU (cols first five l) [length l] (map one_value l).
Proof.
  intros l V. unfold from_points_array. rewrite (vals_ok l V). subst l. cbn [bind column]. rewrite (columns_five first rest).
  eexists. eexists. split; [reflexivity|]. cbn [u_coords u_values]. split; [|split; [|split; [|split; [reflexivity|rewrite map_length; reflexivity]]]].
  - unfold cols, five, named_coordinates. cbn [flat_map]. unfold col. cbn [fst snd]. destruct (p_lat first), (p_lon first), (p_pres first), (p_alt first), (p_time first); reflexivity.
  - unfold cols, five. cbn [flat_map]. unfold col. cbn [fst snd]. destruct (p_lat first), (p_lon first), (p_pres first), (p_alt first), (p_time first); reflexivity.
  - unfold aligned. cbn [u_coords u_values]. rewrite map_length. apply cols_len.
Qed.
Lemma map_seq_ext {A B} (h : nat -> B) (g : A -> B) m : (forall i p, nth_error m i = Some p -> h i = g p) -> map h (seq 0 (length m)) = map g m.
Proof.
  intros H. assert (G : forall m' s, (forall i p, nth_error m' i = Some p -> h (s + i) = g p) -> map h (seq s (length m')) = map g m').
  { induction m' as [|x m' IH]; intros s K; [reflexivity|]. cbn [length seq map]. rewrite <- (K 0 x eq_refl), Nat.add_0_r. f_equal. apply IH. intros i p Hp. rewrite <- (K (S i) p Hp). f_equal. lia. }
  apply G. intros i p. apply H.
Qed.
Theorem points_back first rest d u : let l := first :: rest in p_lat first <> None -> p_lon first <> None -> Forall number_first l -> from_points_array l = Ok (d, u) ->
  points_of d = Ok (map (seen_again first) (filter (has_coordinates_of first) l)).
Proof.
  intros l A B V E. destruct (from_points_ok first rest V) as (d' & u' & E' & _ & _ & _ & _ & D). fold l in E', D. rewrite E' in E. injection E as -> ->. subst d.
  unfold points_of, all_points. rewrite post_points. cbn [bind u_coords u_values]. rewrite flattened_five by auto.
  assert (F : filter (keeps first five) l = filter (has_coordinates_of first) l) by (apply filter_ext; intros; apply keeps_five). rewrite F. set (m := filter _ l).
  set (w := mkView _ _). assert (W : view_length w = Ok (length m)).
  { unfold w, view_length. cbn [w_coords map]. destruct (p_lat first); [|congruence]. rewrite map_length. reflexivity. }
  unfold enumerate_all. rewrite W. cbn [bind].
  set (h := fun k => mkHP (coord_at w 0 k) (coord_at w 1 k) (coord_at w 2 k) (coord_at w 3 k) (coord_at w 4 k) [nth k (map one_value m) None]).
  rewrite (map_res_filter _ (fun k => (k, h k))).
  2:{ intros k Hk. apply in_seq in Hk. unfold view_get. rewrite W. cbn [bind]. destruct (Z.ltb_spec (Z.of_nat k) 0); [lia|]. destruct (Z.leb_spec (Z.of_nat (length m)) (Z.of_nat k)); [lia|]. cbn [orb bind]. rewrite Nat2Z.id. reflexivity. }
  cbn [bind]. rewrite map_map. cbn [snd]. f_equal. apply map_seq_ext. intros i p Hp. unfold as_point, h, seen_again. cbn [hp_lat hp_lon hp_alt hp_pres hp_time hp_val map].
  assert (N : forall f : point -> option Q, match (match f first with Some _ => Some (map f m) | None => None end) with Some c => nth i c None | None => None end = only (f first) (f p)).
  { intros f. unfold only. destruct (f first); [|reflexivity]. erewrite nth_error_nth; [reflexivity|]. rewrite nth_error_map, Hp. reflexivity. }
  unfold coord_at, w. cbn [w_coords map nth]. rewrite !N. f_equal. erewrite nth_error_nth; [reflexivity|]. rewrite nth_error_map, Hp. reflexivity.
Qed.
Lemma only_same (a b : option Q) : match a, b with Some _, None => false | _, _ => true end = true -> match b, a with Some _, None => false | _, _ => true end = true -> only a b = b.
Proof. destruct a, b; simpl; congruence. Qed.
Theorem round_trip first rest : let l := first :: rest in p_lat first <> None -> p_lon first <> None ->
  (forall p, In p l -> same_coordinates first p /\ exists v, p_val p = [One v]) -> exists d u, from_points_array l = Ok (d, u) /\ points_of d = Ok l.
Proof.
  intros l A B H. assert (V : Forall number_first l) by (apply Forall_forall; intros p Hp; destruct (H p Hp) as (_ & v & E); unfold number_first; rewrite E; auto).
  destruct (from_points_ok first rest V) as (d & u & E & _). exists d, u. split; auto. rewrite (points_back first rest d u A B V E). f_equal. fold l.
  rewrite filter_all by (intros p Hp; apply H; auto). rewrite <- (map_id l) at 2. apply map_ext_in. intros p Hp. destruct (H p Hp) as ([S1 S2] & v & E1).
  unfold has_coordinates_of in S1, S2. cbv beta zeta in S1, S2. rewrite !andb_true_iff in S1, S2. destruct S1 as ((((S1 & S3) & S4) & S5) & S6), S2 as ((((T1 & T3) & T4) & T5) & T6).
  unfold seen_again, one_value. rewrite E1. rewrite (only_same _ _ S1 T1), (only_same _ _ S3 T3), (only_same _ _ S4 T4), (only_same _ _ S5 T5), (only_same _ _ S6 T6). destruct p; cbn in *; subst; reflexivity.
Qed.
Lemma from_empty : from_points_array [] = Raises IndexError.
Proof. reflexivity. Qed.
Lemma from_many p r : (exists l r', p_val p = Many l :: r') -> from_points_array (p :: r) = Raises ValueError.
Proof. intros (l & r' & E). unfold from_points_array, vals. cbn [map_res]. unfold val0. rewrite E. reflexivity. Qed.
Theorem data_ok first rest : let l := first :: rest in Forall number_first l ->
  exists d u, from_points_array l = Ok (d, u) /\ combine (map c_std (u_coords d)) u = map (fun nu : str * str => (Some (fst nu), snd nu)) (named_coordinates first) /\
    length (u_coords d) = length u /\ aligned d /\ u_values d = map one_value l.
Proof. intros l V. destruct (from_points_ok first rest V) as (d & u & A & B & C & D & E & _). exists d, u. auto. Qed.
