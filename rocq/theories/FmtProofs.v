(** Proofs for C87. *)
From Coq Require Import String.
From Verif Require Import Base PyStr QBase DateModel DateProofs DistModel FileListModel FileListProofs AeroModel AeroSpec AeroProofs AggModel FmtModel FmtSpec.
From Coq Require Import List Lia.
Import ListNotations.
Open Scope string_scope. Open Scope list_scope. Open Scope Q_scope. Notation length := List.length.

(** *** ticks *)
Definition at_k (lo s : Q) (k : nat) : Q := lo + inject_Z (Z.of_nat k) * s.
Lemma qz_nonneg (z : Z) : (0 <= z)%Z -> 0 <= inject_Z z.
Proof. intros H. change 0 with (inject_Z 0). rewrite <- Zle_Qle. exact H. Qed.
Lemma at_k_mono lo s j k : 0 < s -> (j <= k)%nat -> at_k lo s j <= at_k lo s k.
Proof. intros S H. unfold at_k. replace (Z.of_nat k) with (Z.of_nat j + Z.of_nat (k - j))%Z by lia. rewrite inject_Z_plus. assert (0 <= inject_Z (Z.of_nat (k - j)) * s) by (apply Qmult_le_0_compat; [apply qz_nonneg; lia|lra]). lra. Qed.
Lemma at_0 lo s : at_k lo s 0 == lo.
Proof. unfold at_k. change (inject_Z (Z.of_nat 0)) with 0. ring. Qed.
Lemma qmin_l a b : a <= b -> qmin a b = a.
Proof. intros H. unfold qmin. destruct (Qleb_spec a b); [reflexivity|lra]. Qed.
Lemma qmax_r a b : a <= b -> qmax a b = b.
Proof. intros H. unfold qmax. destruct (Qleb_spec a b); [reflexivity|lra]. Qed.
Lemma fold_min_first lo s t : 0 < s -> forall n j, t <= at_k lo s j -> fold_left qmin (map (at_k lo s) (seq j n)) t = t.
Proof. intros S. induction n as [|n IH]; intros j H; [reflexivity|]. cbn [seq map fold_left]. rewrite qmin_l by exact H. apply IH. eapply Qle_trans; [exact H|]. apply at_k_mono; [exact S|lia]. Qed.
Lemma fold_max_last lo s : 0 < s -> forall n j t, t <= at_k lo s j -> fold_left qmax (map (at_k lo s) (seq j (Datatypes.S n))) t = at_k lo s (j + n).
Proof.
  intros S. induction n as [|n IH]; intros j t H; [cbn [seq map fold_left]; rewrite qmax_r by exact H; f_equal; lia|].
  change (seq j (Datatypes.S (Datatypes.S n))) with (j :: seq (Datatypes.S j) (Datatypes.S n)). cbn [map fold_left]. rewrite qmax_r by exact H. rewrite IH by (apply at_k_mono; [exact S|lia]). f_equal. lia.
Qed.
Lemma arange_up lo hi s : 0 < s -> lo < hi -> exists n, arange lo (hi + s) s = Ok (map (at_k lo s) (seq 0 (Datatypes.S (Datatypes.S n)))) /\ hi <= at_k lo s (Datatypes.S n) /\ at_k lo s (Datatypes.S n) < hi + s.
Proof.
  intros S H. unfold arange. destruct (Qeqb_spec s 0); [lra|]. set (q := (hi + s - lo) / s). assert (Hq : q * s == hi + s - lo) by (unfold q; field; lra).
  pose proof (Qle_ceiling q) as C1. pose proof (Qceiling_lt q) as C2. assert (G : 1 < q). { unfold q. apply Qlt_shift_div_l; lra. }
  assert (Z : (2 <= Qceiling q)%Z). { assert (inject_Z 1 < inject_Z (Qceiling q)) by (change (inject_Z 1) with 1; lra). rewrite <- Zlt_Qlt in H0. lia. }
  exists (Z.to_nat (Qceiling q) - 2)%nat. replace (Datatypes.S (Datatypes.S (Z.to_nat (Qceiling q) - 2))) with (Z.to_nat (Qceiling q)) by lia. split; [reflexivity|].
  unfold at_k. replace (Z.of_nat (Datatypes.S (Z.to_nat (Qceiling q) - 2))) with (Qceiling q - 1)%Z by lia. set (c := inject_Z (Qceiling q)) in *. replace (inject_Z (Qceiling q - 1)) with (inject_Z (Qceiling q + -1)) by reflexivity. replace (inject_Z (Qceiling q - 1)) with (inject_Z (Qceiling q + -1)) in C2 by reflexivity. rewrite inject_Z_plus in *. fold c in C2 |- *. change (inject_Z (-1)) with (-1) in *.
  assert (M1 : q * s <= c * s) by (apply Qmult_le_compat_r; [exact C1|lra]). assert (M2 : (c + -1) * s < q * s) by (apply Qmult_lt_compat_r; [exact S|exact C2]). split; lra.
Qed.
Lemma evenly_map lo s n : evenly lo s (map (at_k lo s) (seq 0 n)).
Proof.
  intros k t H. rewrite nth_error_map in H. destruct (nth_error (seq 0 n) k) as [j|] eqn:E; [|discriminate]. injection H as <-. assert (L : (k < n)%nat) by (rewrite <- (seq_length n 0); apply nth_error_Some; congruence).
  rewrite (nth_error_nth' _ 0%nat) in E by (rewrite seq_length; exact L). rewrite seq_nth in E by exact L. injection E as <-. unfold at_k. reflexivity.
Qed.
Lemma last_map lo s n : last (map (at_k lo s) (seq 0 (Datatypes.S n))) 0 = at_k lo s n.
Proof. rewrite <- (app_nil_r (seq 0 (Datatypes.S n))), seq_S, app_nil_r, map_app. cbn [map]. rewrite last_last. reflexivity. Qed.
Lemma widen_up lo hi s n : 0 < s -> lo < hi -> hi <= at_k lo s (Datatypes.S n) -> exists a, widen (lo, hi) (map (at_k lo s) (seq 0 (Datatypes.S (Datatypes.S n)))) = (a, at_k lo s (Datatypes.S n)) /\ a == lo.
Proof.
  intros S H E. change (seq 0 (Datatypes.S (Datatypes.S n))) with (0 :: seq 1 (Datatypes.S n))%nat. cbn [map]. change (seq 1 (Datatypes.S n)) with (1 :: seq 2 n)%nat. cbn [map widen fst snd].
  change (at_k lo s 1 :: map (at_k lo s) (seq 2 n)) with (map (at_k lo s) (seq 1 (Datatypes.S n))). destruct (Qltb_spec lo hi); [|lra].
  rewrite (fold_min_first lo s _ S) by (apply at_k_mono; [exact S|lia]). rewrite (fold_max_last lo s S) by (apply at_k_mono; [exact S|lia]). rewrite qmax_r by exact E. cbn [Nat.add].
  exists (qmin lo (at_k lo s 0)). split; [reflexivity|]. unfold qmin. destruct (Qleb lo (at_k lo s 0)); [reflexivity|apply at_0].
Qed.
Lemma limits_ok lo hi step bottom top : asked lo bottom < asked hi top -> (forall s, step = Some s -> 0 < s) ->
  exists v ts, y_axis false bottom top lo hi step = Ok (v, ts) /\ fst v == asked lo bottom /\ (step = None -> snd v == asked hi top /\ ts = None) /\
  forall s, step = Some s -> exists t, ts = Some t /\ evenly (asked lo bottom) s t /\ t <> [] /\ asked hi top <= last t 0 < asked hi top + s /\ snd v == last t 0 /\ (multiple (asked hi top - asked lo bottom) s -> snd v == asked hi top).
Proof.
  intros H P. unfold y_axis, apply_axis_limits, set_lim. cbn [fst snd]. change (or_old lo bottom) with (asked lo bottom). change (or_old hi top) with (asked hi top). set (l := asked lo bottom) in *. set (h := asked hi top) in *.
  destruct step as [s|]; [|exists (l, h), None; split; [reflexivity|]; split; [reflexivity|]; split; [intros _; split; reflexivity|discriminate]].
  specialize (P s eq_refl). destruct (arange_up l h s P H) as (n & E & B1 & B2). rewrite E. cbn [bind]. destruct (widen_up l h s n P H B1) as (a & W & A). rewrite W. eexists _, _. split; [reflexivity|]. split; [exact A|]. split; [discriminate|].
  intros s' [= <-]. eexists. split; [reflexivity|]. split; [apply evenly_map|]. split; [discriminate|]. rewrite last_map. split; [split; assumption|]. split; [reflexivity|].
  intros (k & K). cbn [snd]. unfold at_k in *. set (m := Z.of_nat (Datatypes.S n)) in *.
  (* k <= m < k + 1 *)
  assert (L1 : inject_Z k * s <= inject_Z m * s) by lra. assert (L2 : inject_Z m * s < inject_Z (k + 1) * s) by (rewrite inject_Z_plus; change (inject_Z 1) with 1; lra).
  assert (L1' : (k <= m)%Z). { rewrite Zle_Qle. apply Qmult_le_r with s; [exact P|exact L1]. } assert (L2' : (m < k + 1)%Z). { rewrite Zlt_Qlt. apply Qmult_lt_r with s; [exact P|exact L2]. }
  assert (m = k) by lia. subst k. lra.
Qed.
Lemma beyond lo hi step bottom top s v ts : asked lo bottom < asked hi top -> step = Some s -> 0 < s -> ~ multiple (asked hi top - asked lo bottom) s -> y_axis false bottom top lo hi step = Ok (v, ts) -> exists x, asked hi top < x /\ shows v x.
Proof.
  intros H E P N Y. destruct (limits_ok lo hi step bottom top H) as (v' & ts' & Y' & A & _ & B); [intros s' E'; congruence|]. rewrite Y in Y'. injection Y' as <- <-. destruct (B s E) as (t & -> & EV & NE & [L1 L2] & SV & _).
  exists (last t 0). split; [|left; split; lra]. destruct (Qlt_le_dec (asked hi top) (last t 0)) as [G|G]; [exact G|]. exfalso. apply N.
  destruct (exists_last NE) as (t' & x & ->). rewrite last_last in *. assert (K : nth_error (t' ++ [x]) (length t') = Some x) by (rewrite nth_error_app2, Nat.sub_diag by lia; reflexivity). apply EV in K. exists (Z.of_nat (length t')). lra.
Qed.
(** pressures *)
Lemma pressure_from bottom top m : bottom < m < top -> exists v, y_axis true bottom top (Some m) None None = Ok (v, None) /\ forall x, shows v x <-> bottom <= x <= m.
Proof. intros [A B]. eexists. split; [reflexivity|]. intros x. unfold shows, set_lim, or_old. cbn [fst snd]. split; [intros [C|C]; lra|intros C; right; lra]. Qed.
Lemma pressure_both bottom top lo hi : lo < hi -> exists v, y_axis true bottom top (Some lo) (Some hi) None = Ok (v, None) /\ upwards v.
Proof. intros H. eexists. split; [reflexivity|]. exact H. Qed.
Lemma pressure_down bottom top : bottom < top -> exists v, y_axis true bottom top None None None = Ok (v, None) /\ ~ upwards v /\ forall x, shows v x <-> bottom <= x <= top.
Proof. intros H. eexists. split; [reflexivity|]. unfold upwards, shows, set_lim, or_old. cbn [fst snd]. split; [lra|]. intros x. split; [intros [C|C]; lra|intros C; right; lra]. Qed.
Lemma pressure_ticks bottom top s : 0 < s -> s <= top - bottom -> exists v, y_axis true bottom top None None (Some s) = Ok (v, Some []).
Proof.
  intros S H. unfold y_axis, apply_axis_limits, set_lim, or_old. cbn [fst snd]. unfold arange. destruct (Qeqb_spec s 0); [lra|]. assert (C : (Qceiling ((bottom + s - top) / s) <= 0)%Z).
  { change 0%Z with (Qceiling (inject_Z 0)). apply Qceiling_resp_le. apply Qle_shift_div_r; [exact S|]. change (inject_Z 0) with 0. lra. }
  replace (Z.to_nat (Qceiling ((bottom + s - top) / s))) with 0%nat by lia. cbn [seq map bind]. eexists. reflexivity.
Qed.
(** *** size *)
Lemma size_ok width height : let '(w, h) := figure_size width height in
  (forall x, width = Some x -> w == x) /\ (forall x, height = Some x -> h == x) /\ (width = None \/ height = None -> w * 3 == h * 4) /\ (width = None -> height = None -> w == 8 /\ h == 6).
Proof. destruct width as [w|], height as [h|]; cbn; (split; [intros x E; try injection E as <-; try discriminate; try reflexivity|]); (split; [intros x E; try injection E as <-; try discriminate; try reflexivity|]); (split; [intros [E|E]; try discriminate; try field; try reflexivity|]); intros E1 E2; try discriminate; split; reflexivity. Qed.
(** *** maps *)
Lemma fold_qmin l : forall x, fold_left qmin l x <= x /\ (forall y, In y l -> fold_left qmin l x <= y) /\ In (fold_left qmin l x) (x :: l).
Proof.
  induction l as [|a l IH]; intros x; cbn [fold_left]; [split; [lra|split; [intros y []|left; reflexivity]]|]. destruct (IH (qmin x a)) as (A & B & C).
  assert (Q1 : qmin x a <= x /\ qmin x a <= a /\ (qmin x a = x \/ qmin x a = a)). { unfold qmin. destruct (Qleb_spec x a); [split; [lra|split; [exact q|auto]]|split; [lra|split; [lra|auto]]]. } destruct Q1 as (M1 & M2 & M3).
  split; [lra|]. split; [intros y [<-|Hy]; [lra|auto]|]. destruct C as [C|C]; [destruct M3 as [M3|M3]; rewrite <- C, M3; cbn; auto|right; right; exact C].
Qed.
Lemma wrap_start_iff l s : wrap_start l = Some s -> exists m, l = Some m /\ ((s = -180 /\ exists x, In x m /\ x < 0) \/ (s = 0 /\ (exists x, In x m) /\ forall x, In x m -> 0 <= x)).
Proof.
  destruct l as [[|x l]|]; cbn [wrap_start]; try discriminate. intros [= <-]. exists (x :: l). split; [reflexivity|]. destruct (fold_qmin l x) as (A & B & C). destruct (Qltb_spec (fold_left qmin l x) 0) as [G|G].
  - left. split; [reflexivity|]. exists (fold_left qmin l x). auto.
  - right. split; [reflexivity|]. split; [exists x; left; reflexivity|]. intros y [<-|Hy]; [lra|]. specialize (B y Hy). lra.
Qed.
Lemma wrap_start_some m x : In x m -> exists s, wrap_start (Some m) = Some s.
Proof. destruct m as [|a m]; [intros []|intros _; eexists; reflexivity]. Qed.
Lemma begins_ok data xmin s : x_wrap_start data xmin = Some s -> begins data xmin s.
Proof.
  unfold x_wrap_start. destruct xmin as [x|]; [intros [= <-]; destruct (Qltb_spec x 0); [apply asked_negative; auto|apply asked_positive; lra]|].
  set (f := fun d => match wrap_start d with Some s => [s] | None => [] end). destruct (flat_map f data) as [|a r] eqn:E; [discriminate|]. intros [= <-]. destruct (fold_qmin r a) as (A & B & C). rewrite <- E in C. apply in_flat_map in C. destruct C as (d & Hd & C). unfold f in C. destruct (wrap_start d) as [s|] eqn:W; [|destruct C]. destruct C as [C|[]]. 
  destruct (wrap_start_iff _ _ W) as (m & -> & [(-> & x & Hx & N)|(-> & (x & Hx) & N)]); rewrite <- C; [apply (data_negative data m x); auto|]. apply (data_positive data m x); auto.
  intros m' y Hm' Hy. destruct (wrap_start_some m' y Hy) as (s & Ws). assert (I : In s (a :: r)) by (rewrite <- E; apply in_flat_map; exists (Some m'); split; [exact Hm'|]; unfold f; rewrite Ws; left; reflexivity).
  assert (S0 : 0 <= s) by (rewrite C; destruct I as [<-|I]; auto). destruct (wrap_start_iff _ _ Ws) as (m'' & [= <-] & [(-> & _)|(_ & _ & P)]); [lra|auto].
Qed.
Lemma begins_fun data xmin s s' : begins data xmin s -> begins data xmin s' -> s = s'.
Proof.
  intros A B. destruct A as [x H|x H|l x H1 H2 H3|l x H1 H2 H3].
  - inversion B; subst; [reflexivity|lra].
  - inversion B; subst; [lra|reflexivity].
  - inversion B as [ | | |l' x' K1 K2 K3]; subst; [reflexivity|]. specialize (K3 _ _ H1 H2). lra.
  - inversion B as [ | |l' x' K1 K2 K3| ]; subst; [|reflexivity]. specialize (H3 _ _ K1 K2). lra.
Qed.
Lemma begins_found data xmin s : begins data xmin s -> x_wrap_start data xmin = Some s.
Proof.
  intros H. assert (E : exists s', x_wrap_start data xmin = Some s').
  { unfold x_wrap_start. assert (F : forall l x, In (Some l) data -> In x l -> exists s', match flat_map (fun d => match wrap_start d with Some s => [s] | None => [] end) data with [] => None | s :: r => Some (fold_left qmin r s) end = Some s').
    { intros l x H1 H2. destruct (wrap_start_some l x H2) as (s' & W). destruct (flat_map _ data) as [|a r] eqn:E; [|eexists; reflexivity]. exfalso. assert (I : In s' []). { rewrite <- E. apply in_flat_map. exists (Some l). split; [exact H1|]. rewrite W. left. reflexivity. } destruct I. }
    destruct H as [x H|x H|l x H1 H2 H3|l x H1 H2 H3]; try (eexists; reflexivity); eauto. }
  destruct E as (s' & E). rewrite E. f_equal. eapply begins_fun; [apply begins_ok; exact E|exact H].
Qed.
Lemma map_ok data xmin s : begins data xmin s -> forall lon, s <= lon < s + 360 -> drawn_at (central_longitude None data xmin) lon (lon - s - 180).
Proof.
  intros H lon L. unfold central_longitude. rewrite (begins_found _ _ _ H). split; [lra|]. exists (-1)%Z. change (inject_Z (-1)) with (-1). lra.
Qed.
Lemma map_limits_some x1 x2 y1 y2 xmin xmax ymin ymax a b c d : map_limits (x1, x2, y1, y2) xmin xmax ymin ymax = Some (a, b, c, d) -> a = asked xmin x1 /\ b = asked xmax x2 /\ c = asked ymin y1 /\ d = asked ymax y2.
Proof. unfold map_limits. destruct xmin, xmax, ymin, ymax; try (intros [= <- <- <- <-]; repeat split; fail). destruct (_ || _); [discriminate|]. intros [= <- <- <- <-]; repeat split. Qed.
Lemma kept_border x1 x2 y1 y2 xmax ymin ymax a b c d central : map_limits (x1, x2, y1, y2) None xmax ymin ymax = Some (a, b, c, d) -> (same_longitude a (x1 + central) <-> multiple central 360).
Proof.
  intros E. apply map_limits_some in E. destruct E as (-> & _). cbn [asked]. split; intros (k & K); exists (- k)%Z; rewrite inject_Z_opp; lra.
Qed.
Lemma coast_ok ext : let r := resolution coastline_scales ext in (ext < 100 -> r = lit "10m") /\ (100 <= ext < 500 -> r = lit "50m") /\ (500 <= ext -> r = lit "110m").
Proof.
  unfold resolution, coastline_scales. cbn [fold_left fst snd]. destruct (Qltb_spec ext 100), (Qltb_spec ext 500); (split; [intros; first [reflexivity|lra]|split; [intros; first [reflexivity|lra]|intros; first [reflexivity|lra]]]).
Qed.
Lemma marble_ok ext : let r := resolution bluemarble_scales ext in
  (ext < 2500 -> r = lit "raster/world.topo.bathy.200407.3x5400x2700.png") /\ (2500 <= ext < 5000 -> r = lit "raster/world.topo.bathy.200407.3x2700x1350.png") /\ (5000 <= ext -> r = lit "raster/world.topo.bathy.200407.3x1350x675.png").
Proof.
  unfold resolution, bluemarble_scales. cbn [fold_left fst snd]. destruct (Qltb_spec ext 2500), (Qltb_spec ext 5000); (split; [intros; first [reflexivity|lra]|split; [intros; first [reflexivity|lra]|intros; first [reflexivity|lra]]]).
Qed.
(** *** times *)
Lemma line_time t : exists x, generic_x (Some (lit "time")) [days_since_1600 t] = [x] /\ number_of t x.
Proof.
  unfold generic_x. rewrite str_eqb_refl. cbn [map]. eexists. split; [reflexivity|]. unfold number_of, days_since_1600. replace (toordinal epoch - toordinal std_ref)%Z with 135140%Z by reflexivity.
  replace (toordinal t - 719163)%Z with (toordinal t - 584023 + - 135140)%Z by lia. rewrite inject_Z_plus. change (inject_Z (-135140)) with (-135140). change (inject_Z 135140) with 135140. lra.
Qed.
Lemma other_axis std points : std <> Some (lit "time") -> generic_x std points = points.
Proof. intros N. unfold generic_x. destruct std as [s|]; [|reflexivity]. destruct (str_eqb s (lit "time")) eqn:E; [apply str_eqb_eq in E; congruence|reflexivity]. Qed.
Lemma day_split (a b : Z) (x y : Z) : (0 <= x < 86400)%Z -> (0 <= y < 86400)%Z -> inject_Z a + inject_Z x / 86400 == inject_Z b + inject_Z y / 86400 -> a = b /\ x = y.
Proof.
  intros X Y E. assert (K : inject_Z (a * 86400 + x) == inject_Z (b * 86400 + y)). { rewrite !inject_Z_plus, !inject_Z_mult. change (inject_Z 86400) with 86400. assert (E2 : (inject_Z a + inject_Z x / 86400) * 86400 == (inject_Z b + inject_Z y / 86400) * 86400) by (rewrite E; reflexivity). field_simplify in E2. lra. }
  unfold Qeq in K. cbn in K. lia.
Qed.
Lemma seconds_range t : valid_datetime t = true -> (0 <= seconds_of_day t < 86400)%Z.
Proof. intros V. apply valid_datetime_iff in V. unfold seconds_of_day. lia. Qed.
Lemma flat_time t u x : valid_datetime t = true -> valid_datetime u = true -> flat_x (Some (lit "time")) [days_since_1600 t] = [x] -> number_of u x -> toordinal u = (toordinal t + 135140)%Z /\ seconds_of_day u = seconds_of_day t.
Proof.
  intros V W E N. injection E as <-. unfold number_of, days_since_1600 in N. apply day_split in N; [|apply seconds_range; exact V|apply seconds_range; exact W]. destruct N as [A B]. split; lia.
Qed.
Lemma labels_tell r t u : format_datetime r t = format_datetime r u -> (r < 1 -> same_clock t u) /\ (1 <= r -> r <= 5 -> t = u) /\ (5 < r -> same_day t u).
Proof.
  unfold format_datetime, same_clock, same_day. destruct (Qltb_spec r 1), (Qltb_spec 5 r); cbn [andb]; try lra; intros E.
  - split; [intros _|split; intros; lra]. destruct (second t =? 0)%Z eqn:A, (second u =? 0)%Z eqn:B; try discriminate E; injection E; intros; repeat split; try assumption; try (apply Z.eqb_eq in A, B; congruence).
  - split; [intros; lra|]. split; [intros; lra|intros _]. injection E. auto.
  - split; [intros; lra|]. split; [intros _ _|intros; lra]. injection E. auto.
Qed.
(** *** labels *)
Lemma label_ok n u : n <> [] -> u <> [] -> ~ mentions (lit "since") u -> get_label (Some n) u true = n ++ lit " (" ++ u ++ lit ")".
Proof.
  intros N U M. unfold get_label, format_units. rewrite (proj2 (contains_false _ _) M). destruct n as [|a n]; [contradiction|]. destruct u as [|b u]; [contradiction|]. rewrite <- app_assoc. reflexivity.
Qed.
Lemma label_blank n u : n <> [] -> u = [] \/ mentions (lit "since") u -> get_label (Some n) u true = n ++ lit " ".
Proof.
  intros N U. unfold get_label, format_units. destruct n as [|a n]; [contradiction|]. destruct U as [->|M]; [|apply contains_iff in M; rewrite M; apply app_nil_r].
  change (contains (lit "since") []) with false. apply app_nil_r.
Qed.
(** *** contours *)
Lemma without_get names (kw : kwdict) n : dict_get (without_names names kw) n = if existsb (str_eqb n) names then None else dict_get kw n.
Proof.
  unfold without_names. induction kw as [|[k v] kw IH]; cbn [filter dict_get fst]; [destruct (existsb _ _); reflexivity|]. destruct (existsb (str_eqb k) names) eqn:E; cbn [negb].
  - rewrite IH. destruct (str_eq_dec k n) as [->|N]; [rewrite E; reflexivity|reflexivity].
  - cbn [dict_get]. destruct (str_eq_dec k n) as [->|N]; [rewrite E; reflexivity|exact IH].
Qed.
Lemma contour_no_step kw : generic_vstep (without_names contour_names kw) = None.
Proof. unfold generic_vstep. rewrite without_get. reflexivity. Qed.
Lemma contour_ok kw mn mx : (forall x l, dict_get kw (lit "contlevels") = Some (Nums (x :: l)) -> contour_levels kw mn mx = Levels (x :: l)) /\
  ((forall x l, dict_get kw (lit "contlevels") <> Some (Nums (x :: l))) -> (forall n, dict_get kw (lit "contnlevels") = Some (Num n) -> contour_levels kw mn mx = Number n) /\ (dict_get kw (lit "contnlevels") = None -> contour_levels kw mn mx = Number 7)).
Proof.
  unfold contour_levels. rewrite contour_no_step. split; [intros x l ->; reflexivity|]. intros N. split; [intros n H|intros H]; rewrite H; cbn [num or_old]; destruct (dict_get kw (lit "contlevels")) as [[q|[|x l]|]|]; try reflexivity; exfalso; apply (N x l); reflexivity.
Qed.
Lemma contour_ignores kw kw' mn mx : (forall n, n <> lit "vstep" -> dict_get kw n = dict_get kw' n) -> contour_levels kw mn mx = contour_levels kw' mn mx /\ contour_bar_step kw = None.
Proof.
  intros H. split; [|apply contour_no_step]. unfold contour_levels. rewrite !contour_no_step. rewrite (H (lit "contlevels")), (H (lit "contnlevels")) by (intros E; vm_compute in E; discriminate E). reflexivity.
Qed.
Lemma bar_step kw s : dict_get kw (lit "vstep") = Some (Num s) -> other_bar_step kw = Some s.
Proof. intros H. unfold other_bar_step, generic_vstep. rewrite H. reflexivity. Qed.
Lemma map_global x1 x2 y1 y2 xmin xmax ymin ymax : map_limits (x1, x2, y1, y2) xmin xmax ymin ymax = None <-> (xmin = None /\ xmax = None /\ ymin = None /\ ymax = None) /\ (144 < y2 - y1 \/ 288 < x2 - x1).
Proof.
  assert (K1 : (90 - -90) * (8 / 10) == 144) by reflexivity. assert (K2 : (180 - -180) * (8 / 10) == 288) by reflexivity.
  unfold map_limits. destruct xmin, xmax, ymin, ymax; try (split; [discriminate|intros [(E1 & E2 & E3 & E4) _]; congruence]).
  destruct (Qltb_spec ((90 - -90) * (8 / 10)) (y2 - y1)) as [A|A], (Qltb_spec ((180 - -180) * (8 / 10)) (x2 - x1)) as [B|B]; cbn [orb].
  - split; [intros _; split; [auto|left; lra]|reflexivity].
  - split; [intros _; split; [auto|left; lra]|reflexivity].
  - split; [intros _; split; [auto|right; lra]|reflexivity].
  - split; [discriminate|intros [_ [C|C]]; exfalso; [apply A|apply B]; lra].
Qed.
