(** Proofs for C69, part 6: what is refused, what goes wrong. *)
From Coq Require Import String.
From Verif Require Import Base PyStr QBase LonModel LonSpec LonProofs DateModel DateProofs UngrModel UngrSpec UngrProofs SubsetModel SubsetSpec SubsetProofs AggModel AggProofs Agg3Proofs Agg4Proofs Subset3Proofs GColModel GCol2Proofs InterpModel InterpSpec InterpProofs Interp2Proofs GUModel GUSpec GUProofs GU2Proofs GU3Proofs GU4Proofs GU5Proofs.
From Coq Require Import List Lia Lqa Arith QArith Qabs.
Import ListNotations.
Open Scope string_scope. Open Scope list_scope. Open Scope nat_scope. Notation length := List.length.

Lemma sampled_method how mdfms s gs : (forall m, ~ way how m) -> sampled_from how mdfms s gs = Raises ValueError.
Proof.
  intros H. unfold sampled_from. destruct (str_eqb how [] || str_eqb how (lit "lin")) eqn:E1; [exfalso; apply (H Lin); left; split; auto; apply orb_true_iff in E1; rewrite !str_eqb_eq in E1; exact E1|].
  destruct (str_eqb how (lit "nn")) eqn:E2; auto. apply str_eqb_eq in E2. exfalso. apply (H Nn). right. auto.
Qed.
Lemma rotate_cases low g : rotate low g = Raises ValueError \/ exists g', rotate low g = Ok g' /\ map (fun g => (gd_std g, gd_other g)) (g_dims g') = map (fun g => (gd_std g, gd_other g)) (g_dims g).
Proof.
  unfold rotate. pose proof (turned_names low (g_dims g)) as T. unfold turned_dims in T. destruct (index_where _ (g_dims g)) as [li|]; [right; eexists; split; [reflexivity|exact T]|].
  destruct (existsb is_lon (g_aux g)); [left; auto|right; exists g; auto].
Qed.
Lemma filter_shorter {A} (f : A -> bool) l : Exists (fun x => f x = false) l -> length (filter f l) < length l.
Proof.
  assert (L : forall l, length (filter f l) <= length l) by (clear; induction l as [|x l IH]; cbn; auto; destruct (f x); cbn; lia).
  induction 1 as [x l H|x l H IH]; cbn; [rewrite H; specialize (L l); lia|]. destruct (f x); cbn; lia.
Qed.
Theorem sampled_undefined how m mdfms s v0 vs : way how m -> aligned s -> complete s -> unique_standard_names (u_coords s) -> u_values s <> [] ->
  Forall (fun g => named_by s g \/ unknown_to s g) (g_dims v0) -> Exists (unknown_to s) (g_dims v0) -> sampled_from how mdfms s (v0 :: vs) = Raises ValueError.
Proof.
  intros HW HA HC HU NV HN HE.
  assert (E : sampled_from how mdfms s (v0 :: vs) = reported (bind (post_process s) (fun s => collocate_all m mdfms None s (v0 :: vs)))).
  { unfold sampled_from. destruct HW as [[[-> | ->] ->]|[-> ->]]; reflexivity. }
  rewrite E, (aligned_complete s HA HC). cbn [bind]. destruct (fix_both_first s HA HC HU NV) as (s1 & low & (HU1 & HT & _) & EF). cbn [collocate_all]. unfold collocate_one. rewrite EF.
  assert (RC : rotated_to low v0 = Raises ValueError \/ exists g', rotated_to low v0 = Ok g' /\ map (fun g => (gd_std g, gd_other g)) (g_dims g') = map (fun g => (gd_std g, gd_other g)) (g_dims v0)).
  { destruct low as [l|]; [apply rotate_cases|right; exists v0; auto]. }
  destruct RC as [-> | (g' & -> & EN)]; [reflexivity|]. cbn [bind].
  assert (MI : make_interpolator s1 g' = Raises ValueError); [|rewrite MI; reflexivity]. unfold make_interpolator.
  assert (FB : Forall2 (fun g1 g2 => gd_std g1 = gd_std g2 /\ gd_name g1 = gd_name g2) (g_dims g') (g_dims v0)).
  { clear -EN. revert EN. generalize (g_dims v0). induction (g_dims g') as [|g1 l IH]; intros [|g2 m] E; try discriminate; constructor; [injection E as E1 E2 _; unfold gd_name; rewrite E1, E2; auto|apply IH; injection E as _ _ E; auto]. }
  assert (UK : forall g, unknown_to s g -> get_coords (u_coords s1) (by_std (gd_name g)) = []).
  { intros g (nm & Eg & N0 & H). assert (gd_name g = nm) as -> by (unfold gd_name; rewrite Eg; destruct nm; [congruence|reflexivity]). unfold get_coords. destruct (filter _ _) as [|c l] eqn:F; auto. exfalso.
    assert (Hc : In c (filter (matches (by_std nm)) (u_coords s1))) by (rewrite F; left; auto). apply filter_In in Hc. destruct Hc as [Hc M]. unfold matches, by_std in M. cbn in M. rewrite !andb_true_r in M. apply std_eqb_eq in M.
    destruct (turns_in_back _ _ _ HT Hc) as (c0 & H0 & I). apply (H c0 H0). injection I as I _ _ _. congruence. }
  set (f := fun d => negb (length (get_coords (u_coords s1) (by_std (gd_name d))) =? 0)). fold f.
  assert (SH : length (filter f (g_dims g')) < length (g_dims g')).
  { apply filter_shorter. clear EN EF E. induction FB as [|a b l k [A B] FB IH]; inversion HE as [? ? X|? ? X]; subst; [left; unfold f; rewrite B, (UK _ X); reflexivity|right; apply IH; auto; inversion HN; auto]. }
  assert (MR : exists cs, map_res (fun d => get_coord (u_coords s1) (by_name (gd_name d))) (filter f (g_dims g')) = Ok cs /\ length cs = length (filter f (g_dims g'))).
  { clear EN SH EF E HE. induction FB as [|a b l k [A B] FB IH]; [exists []; auto|]. inversion HN as [|? ? N1 N2]; subst. destruct (IH N2) as (cs & Ec & Lc). cbn [filter]. destruct (f a) eqn:F; [|exists cs; auto].
    destruct N1 as [N1|N1]; [|exfalso; unfold f in F; rewrite B, (UK _ N1) in F; discriminate]. destruct (find_by_name _ _ _ HT HU1 HU N1) as (c & c' & _ & _ & _ & _ & _ & X & _). exists (c' :: cs). cbn [map_res]. rewrite B, X. cbn [bind]. rewrite Ec. cbn. auto. }
  destruct MR as (cs & -> & Lc). cbn [bind]. replace (length cs =? length (g_dims g')) with false by (symmetry; apply Nat.eqb_neq; lia). reflexivity.
Qed.

(** ** what goes wrong *)
Lemma never_missing dims values pos : proper_dims dims -> all_there dims values -> inside (map continued dims) pos -> ~ linear_answer dims values true false (pos, false) None.
Proof.
  intros HP (f & HF) HI HA. destruct (linear_complete dims values f true false (pos, false) None HP HF HA) as (q & cell & E & _); [intros [_ X]; discriminate|exact HI|discriminate].
Qed.
Lemma one_position (g : gdim) s i pos c x : the_longitude g -> located_at [g] s i pos -> In c (u_coords s) -> c_std c = Some (lit "longitude") -> nth i (c_points c) None = Some x -> unique_standard_names (u_coords s) ->
  exists x', pos = [x'] /\ placed (gd_dim g) x x'.
Proof.
  intros HL HP Hc Hs Hx HU. inversion HP as [|? x' ? l (c' & y & H1 & H2 & H3 & H4) HN]; subst. inversion HN; subst. exists x'. split; auto. destruct H4 as [[_ H4]|[X _]]; [|contradiction].
  assert (c' = c). { apply In_nth_error in Hc, H1. destruct Hc as (a & Ha), H1 as (b & Hb). unfold the_longitude in HL. rewrite HL in H2. assert (b = a) by (eapply HU; eauto; discriminate). subst. congruence. }
  subst c'. rewrite Hx in H3. injection H3 as <-. exact H4.
Qed.
Lemma placed_inside d x y x' : placed d x x' -> same_meridian x y -> within (continued d) y -> within (continued d) x'.
Proof. intros [_ [H|H]] S W; auto. exfalso. exact (H y S W). Qed.
