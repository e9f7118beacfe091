From Coq Require Import String.
From Verif Require Import Base PyStr QBase ProdModel AggModel FmtModel FmtProofs HavModel HavSpec HavProofs MtProofs LkModel LkSpec.
From Coq Require Import List Reals Lia Bool Lqa Lra.
Import ListNotations.
Open Scope string_scope. Open Scope list_scope. Open Scope nat_scope. Notation length := List.length.

(** *** maps *)
Lemma map_iff p : map_plot p = true <-> looks_like_a_map p.
Proof.
  unfold map_plot, is_map, looks_like_a_map, called. destruct (p_kind p); try (split; [discriminate|intros [X _]; discriminate]).
  rewrite andb_true_iff, !starts_with_iff. split.
  - intros [A B]. split; [reflexivity|]. split; assumption.
  - intros (_ & A & B). split; assumption.
Qed.
Lemma map_flat p : map_plot p = true -> p_kind p = Flat.
Proof. intros H. apply map_iff in H. exact (proj1 H). Qed.
(** *** resolutions *)
Lemma Rgtb_true a b : Rgtb a b = true <-> (a > b)%R.
Proof. unfold Rgtb. destruct (Rgt_dec a b); split; auto; discriminate. Qed.
Lemma coast_ok d : coast_for d (finest coast_scales d).
Proof.
  unfold coast_for, finest, coast_scales. cbn [fold_left fst snd]. unfold Rgtb. destruct (Rgt_dec 500 d), (Rgt_dec 100 d).
  - left. split; [Lra.lra|reflexivity].
  - right. left. split; [Lra.lra|reflexivity].
  - left. split; [Lra.lra|reflexivity].
  - right. right. split; [Lra.lra|reflexivity].
Qed.
Lemma picture_ok d : picture_for d (finest picture_scales d).
Proof.
  unfold picture_for, finest, picture_scales. cbn [fold_left fst snd]. unfold Rgtb. destruct (Rgt_dec 5000 d), (Rgt_dec 2500 d).
  - left. split; [Lra.lra|reflexivity].
  - right. left. split; [Lra.lra|reflexivity].
  - left. split; [Lra.lra|reflexivity].
  - right. right. split; [Lra.lra|reflexivity].
Qed.
Lemma same_meridian y0 y1 x : (0 <= y1 - y0 <= 180)%R -> haversine y0 x y1 x = ((y1 - y0) * PI / 180 * 6378)%R.
Proof.
  intros H. unfold haversine, rad, RADIUS. replace ((x * PI / 180 - x * PI / 180) / 2)%R with 0%R by field. rewrite sin_0. pose proof PI_RGT_0 as P.
  set (d := ((y1 * PI / 180 - y0 * PI / 180) / 2)%R). assert (D : (d = (y1 - y0) * (PI / 360))%R) by (unfold d; field). assert (D0 : (0 <= d <= PI / 2)%R) by (rewrite D; split; [apply Rmult_le_pos; Lra.lra|]; assert ((y1 - y0) * (PI / 360) <= 180 * (PI / 360))%R by (apply Rmult_le_compat_r; Lra.lra); Lra.lra).
  replace (sin d ^ 2 + cos (y0 * PI / 180) * cos (y1 * PI / 180) * 0 ^ 2)%R with (Rsqr (sin d)) by (unfold Rsqr; ring). rewrite sqrt_Rsqr by (apply sin_ge_0; Lra.lra). rewrite asin_sin by Lra.lra. rewrite D. field.
Qed.
Lemma whole_circle x0 y0 y1 : (0 <= y1 - y0)%Q -> (y1 - y0 <= 180)%Q -> across (x0, x0 + 360, y0, y1)%Q = (Q2R (y1 - y0) * PI / 180 * 6378)%R.
Proof.
  intros A B. unfold across. rewrite <- haversine_great_circle. replace (Q2R (x0 + 360)) with (Q2R x0 + 360)%R by (rewrite Qreals.Q2R_plus; f_equal; unfold Q2R; cbn; field).
  rewrite hav_periodic, Qreals.Q2R_minus. apply same_meridian. rewrite <- Qreals.Q2R_minus. apply Qreals.Qle_Rle in A. apply Qreals.Qle_Rle in B. unfold Q2R in A at 1. unfold Q2R in B at 2. cbn in A, B. Lra.lra.
Qed.

(** *** ticks *)
Lemma within_iff m t : (Qleb (- m) t && Qleb t m = true) <-> no_more_than m t.
Proof. unfold no_more_than. rewrite andb_true_iff. destruct (Qleb_spec (- m) t), (Qleb_spec t m); split; intros; try (split; assumption || reflexivity); destruct H; try discriminate; exfalso; Lqa.lra. Qed.
Section Ticks.
Variable locate : nat -> list nat -> Q -> Q -> list Q.
Lemma best_ok e xt yt : best_ticks locate e = (xt, yt) -> default_ticks locate e xt yt.
Proof.
  destruct e as [[[x0 x1] y0] y1]. unfold best_ticks, default_ticks.
  set (sx := if Qltb (x1 - x0) 5 then [1; 2; 4; 5; 10] else [1; 3; 6; 9; 10]). set (sy := if Qltb (y1 - y0) 5 then [1; 2; 4; 5; 10] else [1; 3; 6; 9; 10]).
  assert (SX : steps_for (x1 - x0) sx) by (unfold steps_for, sx; destruct (Qltb_spec (x1 - x0) 5); [left|right]; split; try assumption; try reflexivity; Lqa.lra).
  assert (SY : steps_for (y1 - y0) sy) by (unfold steps_for, sy; destruct (Qltb_spec (y1 - y0) 5); [left|right]; split; try assumption; try reflexivity; Lqa.lra).
  assert (B : exists nx ny, (if Qltb ((22 # 10) * (x1 - x0)) (y1 - y0) then (4, 11) else if Qltb ((22 # 10) * (y1 - y0)) (x1 - x0) then (14, 4) else (9, 7)) = (nx, ny) /\ bins_for (x1 - x0) (y1 - y0) nx ny).
  { unfold bins_for. destruct (Qltb_spec ((22 # 10) * (x1 - x0)) (y1 - y0)) as [H|H]; [exists 4, 11; split; [reflexivity|left; auto]|]. destruct (Qltb_spec ((22 # 10) * (y1 - y0)) (x1 - x0)) as [H'|H'].
    - exists 14, 4. split; [reflexivity|]. right. left. split; [apply Qnot_lt_le; exact H|]. auto.
    - exists 9, 7. split; [reflexivity|]. right. right. split; [apply Qnot_lt_le; exact H|]. split; [apply Qnot_lt_le; exact H'|auto]. }
  destruct B as (nx & ny & -> & B). rewrite pair_equal_spec. intros [<- <-]. exists nx, ny, sx, sy. split; [exact B|]. split; [exact SX|]. split; [exact SY|]. split; intros t; rewrite filter_In, <- within_iff; reflexivity.
Qed.
Lemma stepped_ok lo hi s : (0 < s)%Q -> (lo < hi)%Q -> exists l, arange lo (hi + s) s = Ok l /\ stepped lo hi s l.
Proof.
  intros P H. destruct (arange_up lo hi s P H) as (n & E & B1 & B2). eexists. split; [exact E|]. assert (N : forall k t, nth_error (map (at_k lo s) (seq 0 (Datatypes.S (Datatypes.S n)))) k = Some t -> t = at_k lo s k /\ k <= S n).
  { intros k t K. assert (L : k < S (S n)). { apply nth_error_Some in K || (assert (X : nth_error (map (at_k lo s) (seq 0 (S (S n)))) k <> None) by congruence; apply nth_error_Some in X; rewrite map_length, seq_length in X; exact X). }
    rewrite nth_error_map in K. rewrite (nth_error_nth' _ 0) in K by (rewrite seq_length; exact L). rewrite seq_nth in K by exact L. cbn in K. split; [congruence|lia]. }
  split; [|split].
  - exists (at_k lo s 0). split; [reflexivity|]. unfold at_k. change (inject_Z (Z.of_nat 0)) with 0%Q. ring.
  - intros k t K. destruct (N k t K) as [-> L]. split; [unfold at_k; reflexivity|].
    assert (at_k lo s k <= at_k lo s (S n))%Q; [|Lqa.lra]. unfold at_k. assert (inject_Z (Z.of_nat k) <= inject_Z (Z.of_nat (S n)))%Q by (rewrite <- Zle_Qle; lia). Lqa.nra.
  - exists (at_k lo s (S n)). split; [|exact B1]. apply in_map. apply in_seq. lia.
Qed.
End Ticks.
Section Finish.
Variable locate : nat -> list nat -> Q -> Q -> list Q.
Variable rectangular : bool.
Variable before : Q * Q * Q * Q.
Variable after : option (Q * Q * Q * Q) -> Q * Q * Q * Q.
Variable natural_earth : bool.
Variable view_x view_y : view.
Notation finish := (finish locate rectangular before after natural_earth view_x view_y).
Notation draw := (draw locate rectangular before natural_earth).
Definition formatted (p : plot) (o : options) : axes := format (grid o) (xlabel o) (ylabel o) (user_title o) (log_scales p (logx o) (logy o) (draw p blank)).
(** everything but ticks and the picture *)
Definition same_but_ticks (a b : axes) : Prop :=
  x_log a = x_log b /\ y_log a = y_log b /\ rescaled a = rescaled b /\ grid_lines a = grid_lines b /\ map_lines a = map_lines b /\ x_label a = x_label b /\ y_label a = y_label b /\ title a = title b /\ coast a = coast b /\ colour_bar a = colour_bar b.
Lemma map_ticks_inv xmin xmax ymin ymax xstep ystep a b : map_ticks locate before after xmin xmax ymin ymax xstep ystep a = Ok b -> same_but_ticks b a /\ picture b = picture a.
Proof.
  unfold map_ticks. destruct (after _) as [[[x1 x2] y1] y2]. destruct (best_ticks locate (x1, x2, y1, y2)) as [xt yt].
  destruct (match xstep with Some s => arange x1 (x2 + s) s | None => Ok xt end) as [xt'|]; cbn [bind]; [|discriminate].
  destruct (match ystep with Some s => arange y1 (y2 + s) s | None => Ok yt end) as [yt'|]; cbn [bind]; [|discriminate]. intros [= <-]. repeat split.
Qed.
Lemma finish_inv p o a ev : finish p o blank = Ok (a, ev) -> same_but_ticks a (formatted p o) /\ ev = [match output o with Some f => Saved f | None => Shown end].
Proof.
  unfold LkModel.finish. fold (formatted p o). destruct (map_plot p) eqn:M.
  - destruct rectangular.
    + destruct (map_ticks _ _ _ _ _ _ _ _ _ (formatted p o)) as [b|] eqn:T; cbn [bind]; [|discriminate]. apply map_ticks_inv in T. destruct T as [T _]. intros H. injection H as <- <-. split; [|reflexivity]. destruct (bluemarble o); [|exact T]. exact T.
    + cbn [bind]. intros H. injection H as <- <-. split; [|reflexivity]. destruct (bluemarble o); repeat split.
  - destruct (p_kind p) eqn:K; try (unfold limits; destruct (apply_axis_limits (xmin o) (xmax o) (xstep o) view_x) as [x|]; cbn [bind]; [|discriminate];
      destruct (apply_axis_limits (ymin o) (ymax o) (ystep o) view_y) as [y|]; cbn [bind]; [|discriminate]; intros H; injection H as <- <-; repeat split).
    cbn [bind]. intros H. injection H as <- <-. repeat split.
Qed.
(** what drawing does *)
Notation with_coast := (with_coast before natural_earth).
Notation with_ticks := (with_ticks locate rectangular before).
Lemma the_bar_cases p : with_bar p (with_labels p blank) = mkAx false false false false false (Some (p_xlabel p)) (Some (p_ylabel p)) (match p_kind p with Flat => if p_bar p then None else p_label p | _ => None end) None None None None (the_bar p).
Proof. unfold with_bar, the_bar, with_labels, blank. cbn [x_log y_log rescaled grid_lines map_lines x_label y_label title x_ticks y_ticks coast picture colour_bar]. destruct (p_kind p); try reflexivity; destruct (p_bar p); reflexivity. Qed.
Definition after_coast (p : plot) (c : option (str * str)) : axes :=
  mkAx false false false false false (Some (p_xlabel p)) (Some (p_ylabel p)) (match p_kind p with Flat => if p_bar p then None else p_label p | _ => None end) None None c None (the_bar p).
Lemma coast_cases p : with_coast p (after_coast p None) = after_coast p (if p_coast p && natural_earth then Some (resolution_of coast_scales before, p_colour p) else None).
Proof. unfold LkModel.with_coast. destruct (p_coast p && natural_earth); reflexivity. Qed.
Lemma draw_cases p : p_kind p <> Taylor -> draw p blank = if map_plot p then with_ticks (after_coast p (if p_coast p && natural_earth then Some (resolution_of coast_scales before, p_colour p) else None)) else after_coast p None.
Proof.
  intros N. assert (E : draw p blank = if map_plot p then with_ticks (with_coast p (after_coast p None)) else after_coast p None).
  { unfold LkModel.draw. rewrite the_bar_cases. fold (after_coast p None). destruct (p_kind p); congruence. }
  rewrite E, coast_cases. reflexivity.
Qed.
Lemma ticks_keep a : x_log (with_ticks a) = x_log a /\ y_log (with_ticks a) = y_log a /\ rescaled (with_ticks a) = rescaled a /\ grid_lines (with_ticks a) = grid_lines a /\ x_label (with_ticks a) = x_label a /\ y_label (with_ticks a) = y_label a /\
  title (with_ticks a) = title a /\ coast (with_ticks a) = coast a /\ picture (with_ticks a) = picture a /\ colour_bar (with_ticks a) = colour_bar a.
Proof. unfold LkModel.with_ticks. destruct rectangular; repeat split. Qed.
Lemma taylor_dec p : {p_kind p = Taylor} + {p_kind p <> Taylor}.
Proof. destruct (p_kind p); [right; discriminate..|left; reflexivity]. Defined.
Lemma draw_taylor p : p_kind p = Taylor -> draw p blank = blank.
Proof. intros E. unfold LkModel.draw. rewrite E. reflexivity. Qed.
Lemma draw_scales p : x_log (draw p blank) = false /\ y_log (draw p blank) = false /\ rescaled (draw p blank) = false /\ grid_lines (draw p blank) = false.
Proof.
  destruct (taylor_dec p) as [T|T]; [rewrite (draw_taylor p T); auto|]. rewrite (draw_cases p T). destruct (map_plot p); [|repeat split]. destruct (ticks_keep (after_coast p (if p_coast p && natural_earth then Some (resolution_of coast_scales before, p_colour p) else None))) as (-> & -> & -> & -> & _). repeat split.
Qed.
Lemma draw_labels p : p_kind p <> Taylor -> x_label (draw p blank) = Some (p_xlabel p) /\ y_label (draw p blank) = Some (p_ylabel p).
Proof.
  intros T. rewrite (draw_cases p T). destruct (map_plot p); [|repeat split]. destruct (ticks_keep (after_coast p (if p_coast p && natural_earth then Some (resolution_of coast_scales before, p_colour p) else None))) as (_ & _ & _ & _ & -> & -> & _). repeat split.
Qed.
Lemma draw_rest p : p_kind p <> Taylor -> title (draw p blank) = (match p_kind p with Flat => if p_bar p then None else p_label p | _ => None end) /\ colour_bar (draw p blank) = the_bar p /\ picture (draw p blank) = None /\
  coast (draw p blank) = if map_plot p && (p_coast p && natural_earth) then Some (resolution_of coast_scales before, p_colour p) else None.
Proof.
  intros T. rewrite (draw_cases p T). destruct (map_plot p); [|repeat split]. destruct (ticks_keep (after_coast p (if p_coast p && natural_earth then Some (resolution_of coast_scales before, p_colour p) else None))) as (_ & _ & _ & _ & _ & _ & -> & -> & -> & ->). repeat split.
Qed.
Lemma taylor_none p : p_kind p = Taylor -> map_plot p = false /\ the_bar p = None.
Proof. intros T. unfold map_plot, the_bar. rewrite T. split; reflexivity. Qed.
Lemma draw_bar p : colour_bar (draw p blank) = the_bar p.
Proof. destruct (taylor_dec p) as [T|T]; [rewrite (draw_taylor p T), (proj2 (taylor_none p T)); reflexivity|apply (draw_rest p T)]. Qed.
Lemma draw_title p : title (draw p blank) = match p_kind p with Flat => if p_bar p then None else p_label p | _ => None end.
Proof. destruct (taylor_dec p) as [T|T]; [rewrite (draw_taylor p T), T; reflexivity|apply (draw_rest p T)]. Qed.
Lemma draw_picture p : picture (draw p blank) = None.
Proof. destruct (taylor_dec p) as [T|T]; [rewrite (draw_taylor p T); reflexivity|apply (draw_rest p T)]. Qed.
Lemma draw_coast p : coast (draw p blank) = if map_plot p && (p_coast p && natural_earth) then Some (resolution_of coast_scales before, p_colour p) else None.
Proof. destruct (taylor_dec p) as [T|T]; [rewrite (draw_taylor p T), (proj1 (taylor_none p T)); reflexivity|apply (draw_rest p T)]. Qed.
Lemma draw_other p : map_plot p = true -> rectangular = false -> map_lines (draw p blank) = true /\ x_ticks (draw p blank) = None /\ y_ticks (draw p blank) = None.
Proof. intros M R. rewrite draw_cases by (rewrite (map_flat p M); discriminate). rewrite M. unfold LkModel.with_ticks. rewrite R. repeat split. Qed.
(** *** scales *)
Lemma scales p o a ev : finish p o blank = Ok (a, ev) -> map_plot p = false -> p_kind p <> Taylor -> x_log a = logx o /\ y_log a = logy o /\ (rescaled a = true <-> (logx o = true \/ logy o = true) /\ p_kind p <> Flat).
Proof.
  intros H M N. apply finish_inv in H. destruct H as [(A1 & A2 & A3 & _) _]. destruct (draw_scales p) as (D1 & D2 & D3 & _). rewrite A1, A2, A3. unfold formatted, format, log_scales.
  destruct (p_kind p) eqn:K; try congruence; rewrite ?M; cbn [x_log y_log rescaled]; rewrite D1, D2, D3, !orb_false_r; (split; [reflexivity|]; split; [reflexivity|]); rewrite ?andb_true_r, ?andb_false_r, ?orb_true_iff;
  split; try discriminate; try (intros X; split; [exact X|congruence]); intros [X Y]; try exact X; congruence.
Qed.
Lemma scales_lost p o a ev : finish p o blank = Ok (a, ev) -> map_plot p = true \/ p_kind p = Taylor -> x_log a = false /\ y_log a = false.
Proof.
  intros H M. apply finish_inv in H. destruct H as [(A1 & A2 & _) _]. destruct (draw_scales p) as (D1 & D2 & _). rewrite A1, A2. unfold formatted, format, log_scales. destruct M as [M|M].
  - rewrite (map_flat p M), M. cbn [x_log y_log]. auto.
  - rewrite M. cbn [x_log y_log]. auto.
Qed.
Lemma grid_iff p o a ev : finish p o blank = Ok (a, ev) -> grid_lines a = grid o.
Proof.
  intros H. apply finish_inv in H. destruct H as [(_ & _ & _ & A4 & _) _]. destruct (draw_scales p) as (_ & _ & _ & D4). rewrite A4. unfold formatted, format, log_scales. cbn [grid_lines].
  destruct (p_kind p); try destruct (map_plot p); cbn [grid_lines]; rewrite D4, orb_false_r; reflexivity.
Qed.
(** *** texts *)
Lemma log_keeps p lx ly a : x_label (log_scales p lx ly a) = x_label a /\ y_label (log_scales p lx ly a) = y_label a /\ title (log_scales p lx ly a) = title a /\ coast (log_scales p lx ly a) = coast a /\ colour_bar (log_scales p lx ly a) = colour_bar a /\ map_lines (log_scales p lx ly a) = map_lines a /\
  x_ticks (log_scales p lx ly a) = x_ticks a /\ y_ticks (log_scales p lx ly a) = y_ticks a /\ picture (log_scales p lx ly a) = picture a.
Proof. unfold log_scales. destruct (p_kind p); try destruct (map_plot p); repeat split. Qed.
Lemma given_users asked own : users asked own (given asked own).
Proof. destruct asked; reflexivity. Qed.
Lemma labels p o a ev : finish p o blank = Ok (a, ev) -> p_kind p <> Taylor -> users (xlabel o) (Some (p_xlabel p)) (x_label a) /\ users (ylabel o) (Some (p_ylabel p)) (y_label a).
Proof.
  intros H N. apply finish_inv in H. destruct H as [(_ & _ & _ & _ & _ & A6 & A7 & _) _]. destruct (draw_labels p N) as [D1 D2]. destruct (log_keeps p (logx o) (logy o) (draw p blank)) as (K1 & K2 & _).
  rewrite A6, A7. unfold formatted, format. cbn [x_label y_label]. rewrite K1, K2, D1, D2. split; apply given_users.
Qed.
Lemma titles p o a ev : finish p o blank = Ok (a, ev) -> users (user_title o) (match p_kind p with Flat => if p_bar p then None else p_label p | _ => None end) (title a).
Proof.
  intros H. apply finish_inv in H. destruct H as [(_ & _ & _ & _ & _ & _ & _ & A8 & _) _]. destruct (log_keeps p (logx o) (logy o) (draw p blank)) as (_ & _ & K3 & _).
  rewrite A8. unfold formatted, format. cbn [title]. rewrite K3, draw_title. apply given_users.
Qed.
(** *** colour bars *)
Lemma label_ok a b : label_of a b (or_else a b).
Proof. destruct a as [[|c t]|]; cbn; [left; auto|right; split; [exists c, t; reflexivity|reflexivity]|left; auto]. Qed.
Lemma bars p o a ev : finish p o blank = Ok (a, ev) -> colour_bar a = the_bar p.
Proof.
  intros H. apply finish_inv in H. destruct H as [(_ & _ & _ & _ & _ & _ & _ & _ & _ & A10) _]. destruct (log_keeps p (logx o) (logy o) (draw p blank)) as (_ & _ & _ & _ & K5 & _).
  rewrite A10. unfold formatted, format. cbn [colour_bar]. rewrite K5. apply draw_bar.
Qed.
Lemma bar_iff p o a ev : finish p o blank = Ok (a, ev) -> ((exists b, colour_bar a = Some b) <-> (p_kind p = Flat \/ p_kind p = Histogram2) /\ p_bar p = true).
Proof.
  intros H. rewrite (bars p o a ev H). unfold the_bar. split.
  - intros (b & E). destruct (p_kind p); try discriminate; destruct (p_bar p); try discriminate; auto.
  - intros [[K|K] B]; rewrite K, B; eexists; reflexivity.
Qed.
Lemma bar_details p o a ev b : finish p o blank = Ok (a, ev) -> colour_bar a = Some b -> b_step b = p_vstep p /\ b_log b = p_logv p /\ b_scale b = p_scale p.
Proof. intros H. rewrite (bars p o a ev H). unfold the_bar. destruct (p_kind p); try discriminate; destruct (p_bar p); try discriminate; intros E; injection E as <-; repeat split. Qed.
Lemma bar_label p o a ev b : finish p o blank = Ok (a, ev) -> colour_bar a = Some b -> label_of (p_barlabel p) (match p_kind p with Flat => p_label p | _ => Some (lit "Frequency") end) (b_label b).
Proof. intros H. rewrite (bars p o a ev H). unfold the_bar. destruct (p_kind p); try discriminate; destruct (p_bar p); try discriminate; intros E; injection E as <-; apply label_ok. Qed.
Lemma bar_orient p o a ev b : finish p o blank = Ok (a, ev) -> colour_bar a = Some b ->
  match p_orient p with
  | Some w => b_orient b = Some w
  | None => (p_kind p = Flat -> (looks_like_a_map p /\ p_wide p = true -> b_orient b = Some (lit "horizontal")) /\ (~ (looks_like_a_map p /\ p_wide p = true) -> b_orient b = Some (lit "vertical"))) /\ (p_kind p = Histogram2 -> b_orient b = None)
  end.
Proof.
  intros H. rewrite (bars p o a ev H). unfold the_bar. pose proof (map_iff p) as MI. destruct (p_kind p) eqn:K; try discriminate; destruct (p_bar p); try discriminate; intros E.
  - assert (X : b_orient b = match p_orient p with Some w => Some w | None => Some (if map_plot p && p_wide p then lit "horizontal" else lit "vertical") end) by (injection E as <-; destruct (p_orient p); reflexivity).
    rewrite X. destruct (p_orient p); [reflexivity|]. split; [|discriminate]. intros _. destruct (map_plot p), (p_wide p); cbn [andb]; split; intros Y; try reflexivity; try (destruct Y as [Y1 Y2]; try discriminate; apply MI in Y1; discriminate); exfalso; apply Y; split; try reflexivity; apply MI; reflexivity.
  - assert (X : b_orient b = p_orient p) by (injection E as <-; reflexivity). rewrite X. destruct (p_orient p); [reflexivity|]. split; [discriminate|reflexivity].
Qed.
(** *** coast lines and pictures *)
Lemma across_eq e s : resolution_of s e = finest s (across e).
Proof. destruct e as [[[x0 x1] y0] y1]. unfold resolution_of, across, corner_distance. rewrite haversine_great_circle. reflexivity. Qed.
Lemma coasts p o a ev : finish p o blank = Ok (a, ev) -> match coast a with
  | Some (r, c) => looks_like_a_map p /\ p_coast p = true /\ natural_earth = true /\ c = p_colour p /\ coast_for (across before) r
  | None => ~ (looks_like_a_map p /\ p_coast p = true /\ natural_earth = true) end.
Proof.
  intros H. apply finish_inv in H. destruct H as [(_ & _ & _ & _ & _ & _ & _ & _ & A9 & _) _]. destruct (log_keeps p (logx o) (logy o) (draw p blank)) as (_ & _ & _ & K4 & _).
  rewrite A9. unfold formatted, format. cbn [coast]. rewrite K4, draw_coast. pose proof (map_iff p) as MI. destruct (map_plot p), (p_coast p), natural_earth; cbn [andb]; try (intros (X & Y & Z); try discriminate; apply MI in X; discriminate).
  rewrite across_eq. split; [apply MI; reflexivity|]. repeat split. apply coast_ok.
Qed.
Lemma pictures p o a ev : finish p o blank = Ok (a, ev) -> match picture a with
  | Some r => looks_like_a_map p /\ bluemarble o = true /\ picture_for (across (if rectangular then after (map_limits before (xmin o) (xmax o) (ymin o) (ymax o)) else before)) r
  | None => ~ (looks_like_a_map p /\ bluemarble o = true) end.
Proof.
  assert (P : picture (formatted p o) = None).
  { unfold formatted, format. cbn [picture]. destruct (log_keeps p (logx o) (logy o) (draw p blank)) as (_ & _ & _ & _ & _ & _ & _ & _ & ->).
    apply draw_picture. }
  pose proof (map_iff p) as MI. unfold LkModel.finish. fold (formatted p o). destruct (map_plot p) eqn:M.
  - destruct rectangular.
    + destruct (map_ticks _ _ _ _ _ _ _ _ _ (formatted p o)) as [b|] eqn:T; cbn [bind]; [|discriminate]. apply map_ticks_inv in T. destruct T as [_ T]. intros H. injection H as <- _. destruct (bluemarble o); cbn [picture].
      * rewrite across_eq. split; [apply MI; reflexivity|]. split; [reflexivity|]. apply picture_ok.
      * rewrite T, P. intros [_ X]. discriminate.
    + cbn [bind]. intros H. injection H as <- _. destruct (bluemarble o); cbn [picture].
      * rewrite across_eq. split; [apply MI; reflexivity|]. split; [reflexivity|]. apply picture_ok.
      * rewrite P. intros [_ X]. discriminate.
  - destruct (p_kind p) eqn:K; try (unfold limits; destruct (apply_axis_limits (xmin o) (xmax o) (xstep o) view_x) as [x|]; cbn [bind]; [|discriminate];
      destruct (apply_axis_limits (ymin o) (ymax o) (ystep o) view_y) as [y|]; cbn [bind]; [|discriminate]; intros H; injection H as <- _; change (picture _) with (picture (formatted p o)) at 1; rewrite P; intros [X _]; apply MI in X; discriminate).
    cbn [bind]. intros H. injection H as <- _. rewrite P. intros [X _]. apply MI in X. discriminate.
Qed.
(** *** ticks of maps *)
Lemma ticks p o a ev : rectangular = true -> looks_like_a_map p -> finish p o blank = Ok (a, ev) ->
  let e := after (map_limits before (xmin o) (xmax o) (ymin o) (ymax o)) in let '(x1, x2, y1, y2) := e in
  (x1 < x2)%Q -> (y1 < y2)%Q -> (forall s, xstep o = Some s -> (0 < s)%Q) -> (forall s, ystep o = Some s -> (0 < s)%Q) ->
  exists xt yt xd yd, x_ticks a = Some xt /\ y_ticks a = Some yt /\ default_ticks locate e xd yd /\ ticks_of_axis (xstep o) x1 x2 xd xt /\ ticks_of_axis (ystep o) y1 y2 yd yt.
Proof.
  intros R M H. cbv zeta. destruct (after _) as [[[x1 x2] y1] y2] eqn:E. intros LX LY SX SY. apply map_iff in M. unfold LkModel.finish in H. rewrite M, R in H. fold (formatted p o) in H. unfold map_ticks in H. rewrite E in H.
  destruct (best_ticks locate (x1, x2, y1, y2)) as [xd yd] eqn:B. apply best_ok in B.
  assert (X : exists xt, match xstep o with Some s => arange x1 (x2 + s) s | None => Ok xd end = Ok xt /\ ticks_of_axis (xstep o) x1 x2 xd xt).
  { destruct (xstep o) as [s|]; [|exists xd; split; reflexivity]. exact (stepped_ok x1 x2 s (SX s eq_refl) LX). }
  assert (Y : exists yt, match ystep o with Some s => arange y1 (y2 + s) s | None => Ok yd end = Ok yt /\ ticks_of_axis (ystep o) y1 y2 yd yt).
  { destruct (ystep o) as [s|]; [|exists yd; split; reflexivity]. exact (stepped_ok y1 y2 s (SY s eq_refl) LY). }
  destruct X as (xt & EX & TX), Y as (yt & EY & TY). rewrite EX in H. cbn [bind] in H. rewrite EY in H. cbn [bind] in H. injection H as <- _. exists xt, yt, xd, yd. destruct (bluemarble o); repeat split; assumption.
Qed.
(** *** output *)
Lemma outputs p o a ev : finish p o blank = Ok (a, ev) -> (forall f, output o = Some f -> ev = [Saved f]) /\ (output o = None -> ev = [Shown]).
Proof. intros H. apply finish_inv in H. destruct H as [_ ->]. split; [intros f ->|intros ->]; reflexivity. Qed.
Lemma arange_ok lo hi s : ~ (s == 0)%Q -> exists l, arange lo hi s = Ok l.
Proof. intros N. unfold arange. destruct (Qeqb_spec s 0); [contradiction|]. eexists. reflexivity. Qed.
Lemma completes p o : (forall s, xstep o = Some s \/ ystep o = Some s -> ~ (s == 0)%Q) -> exists a ev, finish p o blank = Ok (a, ev).
Proof.
  intros N. unfold LkModel.finish. fold (formatted p o). destruct (map_plot p) eqn:M.
  - destruct rectangular; [|cbn [bind]; eexists _, _; reflexivity].
    assert (exists b, map_ticks locate before after (xmin o) (xmax o) (ymin o) (ymax o) (xstep o) (ystep o) (formatted p o) = Ok b) as (b & ->); [|cbn [bind]; eexists _, _; reflexivity].
    unfold map_ticks. destruct (after _) as [[[x1 x2] y1] y2]. destruct (best_ticks locate (x1, x2, y1, y2)) as [xd yd].
    assert (exists xt, match xstep o with Some s => arange x1 (x2 + s) s | None => Ok xd end = Ok xt) as (xt & ->) by (destruct (xstep o) as [s|]; [apply arange_ok; apply N; auto|eexists; reflexivity]).
    assert (exists yt, match ystep o with Some s => arange y1 (y2 + s) s | None => Ok yd end = Ok yt) as (yt & ->) by (destruct (ystep o) as [s|]; [apply arange_ok; apply N; auto|eexists; reflexivity]).
    eexists. reflexivity.
  - assert (exists b, limits view_x view_y o (formatted p o) = Ok b) as (b & EB).
    { unfold limits. assert (L : forall lo hi st v, (forall s, st = Some s -> ~ (s == 0)%Q) -> exists w, apply_axis_limits lo hi st v = Ok w).
      { intros lo hi st v Z. unfold apply_axis_limits. destruct st as [s|]; [|eexists; reflexivity]. destruct (arange_ok (fst (set_lim lo hi v)) (snd (set_lim lo hi v) + s) s (Z s eq_refl)) as (l & ->). eexists. reflexivity. }
      destruct (L (xmin o) (xmax o) (xstep o) view_x) as (x & ->); [intros s E; apply N; auto|]. destruct (L (ymin o) (ymax o) (ystep o) view_y) as (y & ->); [intros s E; apply N; auto|]. eexists. reflexivity. }
    destruct (p_kind p); rewrite ?EB; cbn [bind]; eexists _, _; reflexivity.
Qed.
End Finish.
(** on another projection nothing is done about limits and steps *)
Lemma not_rectangular locate before after ne vx vy p o a ev : looks_like_a_map p -> finish locate false before after ne vx vy p o blank = Ok (a, ev) -> x_ticks a = None /\ y_ticks a = None /\ map_lines a = true.
Proof.
  intros M H. apply map_iff in M. destruct (draw_other locate false before ne p M eq_refl) as (D1 & D2 & D3). destruct (log_keeps p (logx o) (logy o) (draw locate false before ne p blank)) as (_ & _ & _ & _ & _ & K6 & K7 & K8 & _).
  unfold finish in H. rewrite M in H. cbn [bind] in H. injection H as <- _. unfold format. destruct (bluemarble o); cbn [x_ticks y_ticks map_lines]; rewrite K6, K7, K8; auto.
Qed.
Lemma limits_ignored locate before after ne vx vy p o o' a ev : looks_like_a_map p -> logx o = logx o' -> logy o = logy o' -> grid o = grid o' -> xlabel o = xlabel o' -> ylabel o = ylabel o' -> user_title o = user_title o' -> bluemarble o = bluemarble o' -> output o = output o' ->
  finish locate false before after ne vx vy p o blank = Ok (a, ev) -> finish locate false before after ne vx vy p o' blank = Ok (a, ev).
Proof. intros M E1 E2 E3 E4 E5 E6 E7 E8. apply map_iff in M. unfold finish. rewrite M, E1, E2, E3, E4, E5, E6, E7, E8. exact (fun x => x). Qed.
