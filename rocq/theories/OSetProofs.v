From Verif Require Import Base OSetModel OSetSpec.

Section Proofs.
Context {K : Type}.
Variable keq : forall a b : K, {a = b} + {a <> b}.
Notation oset := (oset K).
Notation node := (node K).

(** [seg h a ls b]: following links from [a] one passes through exactly [ls] and arrives at [b],
    and back-links agree. *)
Fixpoint seg (h : loc -> node) (a : loc) (ls : list loc) (b : loc) : Prop :=
  match ls with
  | [] => nnext (h a) = b /\ nprev (h b) = a
  | x :: xs => nnext (h a) = x /\ nprev (h x) = a /\ seg h x xs b
  end.

Lemma seg_app h ls1 : forall a x ls2 b,
  seg h a (ls1 ++ x :: ls2) b <-> seg h a ls1 x /\ seg h x ls2 b.
Proof.
  induction ls1 as [|y ys IH]; intros a x ls2 b; simpl.
  - tauto.
  - rewrite IH. tauto.
Qed.

(** [seg] only reads next of [a::ls] and prev of [ls++[b]]. *)
Lemma seg_frame h h' ls : forall a b,
  (forall x, In x (a :: ls) -> nnext (h' x) = nnext (h x)) ->
  (forall x, In x (ls ++ [b]) -> nprev (h' x) = nprev (h x)) ->
  seg h a ls b -> seg h' a ls b.
Proof.
  induction ls as [|y ys IH]; intros a b Hn Hp; simpl.
  - intros [H1 H2]. split.
    + rewrite Hn; simpl; auto.
    + rewrite Hp; simpl; auto.
  - intros (H1 & H2 & H3). repeat split.
    + rewrite Hn; simpl; auto.
    + rewrite Hp; simpl; auto.
    + apply IH; auto.
      * intros x Hx. apply Hn. right; exact Hx.
      * intros x Hx. apply Hp. right; exact Hx.
Qed.

Record Inv (s : oset) (l : list K) (ls : list loc) : Prop := {
  inv_seg : seg (heap s) end_ ls end_;
  inv_nd : NoDup (end_ :: ls);
  inv_lt : forall x, In x (end_ :: ls) -> x < fresh s;
  inv_key : map (fun x => nkey (heap s x)) ls = map Some l;
  inv_knd : NoDup l;
  inv_map : omap s = combine l ls
}.

Lemma inv_len s l ls : Inv s l ls -> length l = length ls.
Proof.
  intros I. pose proof (inv_key _ _ _ I) as E.
  apply (f_equal (@length _)) in E. rewrite !map_length in E. auto.
Qed.

Lemma inv_empty : Inv (@empty K) [] [].
Proof.
  constructor; simpl; auto.
  - repeat constructor; auto.
  - intros x [<-|[]]. unfold end_; lia.
  - constructor.
Qed.

Lemma mlookup_none k : forall l ls, length l = length ls ->
  (mlookup keq k (combine l ls) = None <-> ~ In k l).
Proof.
  induction l as [|a l IH]; intros [|b ls] HL; simpl in *; try discriminate; [tauto|].
  destruct (keq k a) as [->|Hne].
  - split; [discriminate|intros H; exfalso; auto].
  - rewrite IH by lia. split; [intros H [->|H']; auto | tauto].
Qed.

Lemma mlookup_some k : forall l ls n, length l = length ls ->
  mlookup keq k (combine l ls) = Some n ->
  exists l1 l2 ls1 ls2, l = l1 ++ k :: l2 /\ ls = ls1 ++ n :: ls2 /\ length l1 = length ls1 /\ ~ In k l1.
Proof.
  induction l as [|a l IH]; intros [|b ls] n HL H; simpl in *; try discriminate.
  destruct (keq k a) as [->|Hne].
  - injection H as ->. exists [], l, [], ls. simpl. auto.
  - destruct (IH ls n) as (l1 & l2 & ls1 & ls2 & -> & -> & E & N); [lia|auto|].
    exists (a :: l1), l2, (b :: ls1), ls2. simpl. repeat split; auto.
    intros [->|H']; auto.
Qed.

Lemma combine_app (l1 l2 : list K) (m1 m2 : list loc) : length l1 = length m1 ->
  combine (l1 ++ l2) (m1 ++ m2) = combine l1 m1 ++ combine l2 m2.
Proof.
  revert m1. induction l1 as [|a l1 IH]; intros [|b m1] H; simpl in *; try discriminate; auto.
  rewrite IH by lia. reflexivity.
Qed.

Lemma mremove_split k n l1 l2 ls1 ls2 : length l1 = length ls1 -> ~ In k l1 ->
  mremove keq k (combine (l1 ++ k :: l2) (ls1 ++ n :: ls2)) = combine (l1 ++ l2) (ls1 ++ ls2).
Proof.
  intros E N. rewrite !combine_app by auto. revert ls1 E.
  induction l1 as [|a l1 IH]; intros [|b ls1] E; simpl in *; try discriminate.
  - destruct (keq k k); congruence.
  - destruct (keq k a) as [->|]; [exfalso; auto|]. rewrite IH; auto.
Qed.

Lemma remove_split k l1 l2 : NoDup (l1 ++ k :: l2) -> remove keq k (l1 ++ k :: l2) = l1 ++ l2.
Proof.
  intros H. apply NoDup_remove in H. destruct H as [_ H].
  rewrite remove_app. simpl. destruct (keq k k); [|congruence].
  rewrite !notin_remove; auto; intros X; apply H, in_or_app; auto.
Qed.

Lemma snoc_inv (A : Type) (l : list A) : l = [] \/ exists l' x, l = l' ++ [x].
Proof.
  destruct l as [|a l]; [left; auto|right].
  destruct (@exists_last _ (a :: l)) as [l' [x E]]; [discriminate|]. eauto.
Qed.

Lemma seg_last h ls : forall a b, seg h a ls b -> nprev (h b) = last ls a.
Proof.
  induction ls as [|x xs IH]; intros a b; simpl.
  - tauto.
  - intros (_ & _ & H). rewrite (IH _ _ H). destruct xs; simpl; auto.
    clear. revert l. induction xs as [|y ys IH]; intros z; simpl; auto.
Qed.

Lemma inv_add s l ls k : Inv s l ls -> exists ls', Inv (add keq s k) (spec_add keq l k) ls'.
Proof.
  intros I. pose proof (inv_len _ _ _ I) as HL. destruct I as [Hseg Hnd Hlt Hkey Hknd Hmap].
  unfold add, spec_add. rewrite Hmap.
  destruct (mlookup keq k (combine l ls)) as [n|] eqn:E.
  - exists ls. destruct (mlookup_some _ _ _ _ HL E) as (l1 & l2 & ls1 & ls2 & -> & -> & _ & _).
    destruct in_dec as [_|N]; [constructor; auto | exfalso; apply N, in_or_app; simpl; auto].
  - apply mlookup_none in E; auto.
    destruct in_dec as [Hin|_]; [contradiction|].
    exists (ls ++ [fresh s]).
    set (n := fresh s) in *.
    assert (Hfn : ~ In n (end_ :: ls)) by (intros H; apply Hlt in H; unfold n in H; lia).
    assert (Hn0 : n <> end_) by (intros H; apply Hfn; left; auto).
    assert (Hcurr : nprev (heap s end_) = last ls end_) by (apply seg_last; auto).
    set (curr := nprev (heap s end_)) in *.
    assert (Hcin : In curr (end_ :: ls)).
    { rewrite Hcurr. destruct (snoc_inv _ ls) as [->|(l' & x & ->)]; simpl; auto.
      right. rewrite last_last. apply in_or_app; simpl; auto. }
    assert (Hcn : curr <> n) by (intros H; apply Hfn; rewrite <- H; auto).
    constructor; cbn [heap fresh omap].
    + (* seg *)
      destruct (snoc_inv _ ls) as [El|(l' & x & El)].
      * rewrite El in *. simpl in Hcurr. simpl. rewrite Hcurr in *.
        unfold set_prev, set_next, alloc.
        repeat (destruct Nat.eq_dec; simpl; try congruence); auto.
      * assert (Ex : curr = x) by (rewrite Hcurr, El, last_last; auto).
        rewrite El in Hseg. apply seg_app in Hseg. destruct Hseg as [Hs1 _].
        rewrite El. rewrite <- app_assoc. simpl. apply seg_app. split.
        -- assert (Hxl : ~ In x (end_ :: l')).
           { rewrite El in Hnd. change (end_ :: l' ++ [x]) with ((end_ :: l') ++ [x]) in Hnd.
             apply NoDup_remove_2 in Hnd. rewrite app_nil_r in Hnd. auto. }
           assert (Hel : ~ In end_ (l' ++ [x])) by (rewrite El in Hnd; inversion Hnd; auto).
           apply seg_frame with (h := heap s); auto.
           ++ intros y Hy. unfold set_prev, set_next, alloc.
              assert (y <> n). { intros ->. apply Hfn. rewrite El. simpl in *. destruct Hy; auto. right; apply in_or_app; auto. }
              assert (y <> curr) by (intros ->; rewrite Ex in Hy; contradiction).
              repeat (destruct Nat.eq_dec; simpl; try congruence); auto.
           ++ intros y Hy. unfold set_prev, set_next, alloc.
              assert (y <> n). { intros ->. apply Hfn. rewrite El. right; auto. }
              assert (y <> end_) by (intros ->; auto).
              repeat (destruct Nat.eq_dec; simpl; try congruence); auto.
        -- simpl. rewrite Ex in *.
           assert (x <> end_). { intros ->. rewrite El in Hnd. inversion Hnd; subst. apply H1, in_or_app; simpl; auto. }
           unfold set_prev, set_next, alloc.
           repeat (destruct Nat.eq_dec; simpl; try congruence); auto.
    + change (end_ :: ls ++ [n]) with ((end_ :: ls) ++ [n]).
      apply NoDup_Add with (a := n) (l := end_ :: ls); [|auto].
      rewrite <- (app_nil_r (end_ :: ls)) at 1. apply Add_app.
    + intros x Hx. change (end_ :: ls ++ [n]) with ((end_ :: ls) ++ [n]) in Hx.
      apply in_app_or in Hx. destruct Hx as [Hx|[<-|[]]]; [apply Hlt in Hx; unfold n; lia | lia].
    + rewrite !map_app. f_equal.
      * rewrite <- Hkey. apply map_ext_in. intros x Hx.
        assert (x <> n) by (intros ->; apply Hfn; right; auto).
        unfold set_prev, set_next, alloc. repeat (destruct Nat.eq_dec; simpl; try congruence); auto.
      * simpl. unfold set_prev, set_next, alloc.
        repeat (destruct Nat.eq_dec; simpl; try congruence); auto.
    + apply NoDup_Add with (a := k) (l := l); [|auto].
      rewrite <- (app_nil_r l) at 1. apply Add_app.
    + rewrite combine_app by auto. reflexivity.
Qed.

Lemma inv_discard s l ls k : Inv s l ls -> exists ls', Inv (discard keq s k) (spec_discard keq l k) ls'.
Proof.
  intros I. pose proof (inv_len _ _ _ I) as HL. destruct I as [Hseg Hnd Hlt Hkey Hknd Hmap].
  unfold discard, spec_discard. rewrite Hmap.
  destruct (mlookup keq k (combine l ls)) as [n|] eqn:E.
  - destruct (mlookup_some _ _ _ _ HL E) as (l1 & l2 & ls1 & ls2 & -> & -> & EL & N).
    exists (ls1 ++ ls2). rewrite remove_split by auto.
    apply seg_app in Hseg. destruct Hseg as [Hs1 Hs2].
    pose proof (seg_last _ _ _ _ Hs1) as Hp.
    assert (Hnn : nnext (heap s n) = hd end_ ls2) by (destruct ls2; simpl in Hs2; tauto).
    set (p := nprev (heap s n)) in *. set (q := nnext (heap s n)) in *.
    assert (Hnd' : NoDup ((end_ :: ls1) ++ n :: ls2)) by exact Hnd.
    pose proof (NoDup_remove_1 _ _ _ Hnd') as Hnd1.
    pose proof (NoDup_remove_2 _ _ _ Hnd') as Hnd2.
    assert (Hpin : In p (end_ :: ls1)).
    { rewrite Hp. destruct (snoc_inv _ ls1) as [->|(l' & x & ->)]; simpl; auto.
      right. rewrite last_last. apply in_or_app; simpl; auto. }
    constructor; cbn [heap fresh omap].
    + (* the ring without n *)
      set (h2 := set_prev (set_next (heap s) p q) q p).
      assert (F : forall x, nnext (h2 x) = (if Nat.eq_dec x p then q else nnext (heap s x))
                         /\ nprev (h2 x) = (if Nat.eq_dec x q then p else nprev (heap s x))).
      { intros x. unfold h2, set_prev, set_next.
        repeat (destruct Nat.eq_dec; simpl; try congruence); auto. }
      destruct ls2 as [|y ys].
      * (* n was last: q = end_ *)
        rewrite app_nil_r. simpl in Hnn.
        destruct (snoc_inv _ ls1) as [El|(l' & x & El)].
        -- rewrite El in *. simpl in Hp. simpl.
           destruct (F end_) as [F1 F2]. rewrite F1, F2.
           split; repeat (destruct Nat.eq_dec; try congruence).
        -- rewrite El in *. rewrite last_last in Hp.
           apply seg_app in Hs1. destruct Hs1 as [Hs1 _].
           assert (Hel : ~ In end_ (l' ++ [x])).
           { inversion Hnd1; subst. rewrite app_nil_r in *. auto. }
           assert (Hxl : ~ In x (end_ :: l')).
           { rewrite app_nil_r in Hnd1. change (end_ :: l' ++ [x]) with ((end_ :: l') ++ [x]) in Hnd1.
             apply NoDup_remove_2 in Hnd1. rewrite app_nil_r in Hnd1. auto. }
           apply seg_app. split.
           ++ apply seg_frame with (h := heap s); auto; intros z Hz; destruct (F z) as [F1 F2].
              ** rewrite F1. clear F1 F2. destruct Nat.eq_dec; auto. exfalso. apply Hxl. congruence.
              ** rewrite F2. clear F1 F2. destruct Nat.eq_dec; auto. exfalso. apply Hel. congruence.
           ++ simpl. destruct (F x) as [F1 F2], (F end_) as [F3 F4]. rewrite F1, F4.
              split; repeat (destruct Nat.eq_dec; try congruence).
      * simpl in Hnn. simpl in Hs2. destruct Hs2 as (_ & _ & Hs2).
        apply seg_app. 
        assert (Hyq : y = q) by auto.
        assert (Hy1 : ~ In y (end_ :: ls1)).
        { change (end_ :: ls1 ++ y :: ys) with ((end_ :: ls1) ++ y :: ys) in Hnd1.
          apply NoDup_remove_2 in Hnd1. intros H; apply Hnd1, in_or_app; auto. }
        assert (Hp2 : ~ In p (y :: ys)).
        { intros H. clear -Hnd1 Hpin H.
          change (end_ :: ls1 ++ y :: ys) with ((end_ :: ls1) ++ y :: ys) in Hnd1.
          revert Hnd1 Hpin. generalize (end_ :: ls1) as L. induction L as [|a L IH]; intros HN [].
          - subst. inversion HN; subst. apply H2, in_or_app; auto.
          - inversion HN; subst. auto. }
        assert (Hyys : ~ In y (ys ++ [end_])).
        { intros H. apply in_app_or in H. destruct H as [H|[H|[]]].
          - change (end_ :: ls1 ++ y :: ys) with ((end_ :: ls1) ++ y :: ys) in Hnd1.
            apply NoDup_remove_2 in Hnd1. apply Hnd1, in_or_app; auto.
          - apply Hy1. left; auto. }
        split.
        -- destruct (snoc_inv _ ls1) as [El|(l' & x & El)].
           ++ rewrite El in *. simpl in Hp. simpl.
              destruct (F end_) as [F1 F2], (F y) as [F3 F4]. rewrite F1, F4.
              split; repeat (destruct Nat.eq_dec; try congruence).
           ++ rewrite El in *. rewrite last_last in Hp.
              apply seg_app in Hs1. destruct Hs1 as [Hs1 _].
              assert (Hxl : ~ In x (end_ :: l')).
              { change (end_ :: (l' ++ [x]) ++ y :: ys) with ((end_ :: (l' ++ [x])) ++ y :: ys) in Hnd1.
                assert (Hz : NoDup (end_ :: l' ++ [x])).
                { apply NoDup_remove_1 in Hnd1. clear -Hnd1. revert Hnd1.
                  generalize (end_ :: l' ++ [x]) as L. induction L as [|a L IH]; intros H; constructor.
                  - inversion H; subst. intros X. apply H2, in_or_app; auto.
                  - inversion H; subst. auto. }
                change (end_ :: l' ++ [x]) with ((end_ :: l') ++ [x]) in Hz.
                apply NoDup_remove_2 in Hz. rewrite app_nil_r in Hz. auto. }
              apply seg_app. split.
              ** apply seg_frame with (h := heap s); auto; intros z Hz; destruct (F z) as [F1 F2].
                 --- rewrite F1. clear F1 F2. destruct Nat.eq_dec; auto. exfalso. apply Hxl. congruence.
                 --- rewrite F2. clear F1 F2. destruct Nat.eq_dec; auto. exfalso. apply Hy1.
                     right. congruence.
              ** simpl. destruct (F x) as [F1 F2], (F y) as [F3 F4]. rewrite F1, F4.
                 split; repeat (destruct Nat.eq_dec; try congruence).
        -- apply seg_frame with (h := heap s); auto; intros z Hz; destruct (F z) as [F1 F2].
           ++ rewrite F1. clear F1 F2. destruct Nat.eq_dec; auto. exfalso. apply Hp2. congruence.
           ++ rewrite F2. clear F1 F2. destruct Nat.eq_dec; auto. exfalso. apply Hyys. congruence.
    + exact Hnd1.
    + intros x Hx. apply Hlt. simpl in *. destruct Hx as [|Hx]; auto. right.
      apply in_app_or in Hx. apply in_or_app. simpl. tauto.
    + rewrite !map_app in Hkey. simpl in Hkey.
      assert (EL' : length (map (fun x => nkey (heap s x)) ls1) = length (map (@Some K) l1))
        by (rewrite !map_length; auto).
      assert (E1 : map (fun x => nkey (heap s x)) ls1 = map Some l1
                   /\ map (fun x => nkey (heap s x)) ls2 = map Some l2).
      { revert Hkey EL'. generalize (map (fun x => nkey (heap s x)) ls1) as A.
        generalize (map (@Some K) l1) as B. clear.
        intros B A. revert B. induction A as [|a A IH]; intros [|b B] H E; simpl in *; try discriminate.
        - injection H as H1 H2. auto.
        - injection H as H1 H2. destruct (IH B) as [-> ->]; auto. subst. auto. }
      destruct E1 as [E1 E2].
      assert (G : forall x, nkey (set_prev (set_next (heap s) p q) q p x) = nkey (heap s x)).
      { intros x. unfold set_prev, set_next. repeat (destruct Nat.eq_dec; simpl; try congruence); auto. }
      rewrite !map_app. f_equal; erewrite map_ext; eauto.
    + apply NoDup_remove_1 in Hknd; auto.
    + apply mremove_split; auto.
  - exists ls. apply mlookup_none in E; auto. rewrite notin_remove by auto. constructor; auto.
Qed.

Lemma iter_seg h : forall ls a l fuel,
  seg h a ls end_ -> ~ In end_ ls -> map (fun x => nkey (h x)) ls = map Some l ->
  length ls < fuel -> iter_from fuel h (nnext (h a)) = Some l.
Proof.
  induction ls as [|x xs IH]; intros a l fuel Hs Hn Hk Hf.
  - destruct l; [|discriminate]. destruct fuel; [lia|]. simpl in *. destruct Hs as [-> _].
    reflexivity.
  - destruct l as [|k l]; [discriminate|]. destruct fuel; [simpl in Hf; lia|].
    simpl in Hs. destruct Hs as (H1 & H2 & H3). simpl in Hk. injection Hk as Hk1 Hk2.
    simpl. rewrite H1. destruct Nat.eq_dec as [->|Hne]; [exfalso; apply Hn; left; auto|].
    rewrite Hk1. rewrite (IH x l); auto.
    + intros X; apply Hn; right; auto.
    + simpl in Hf; lia.
Qed.

Lemma riter_seg h : forall ls b l fuel,
  seg h end_ ls b -> ~ In end_ ls -> map (fun x => nkey (h x)) ls = map Some l ->
  length ls < fuel -> riter_from fuel h (nprev (h b)) = Some (rev l).
Proof.
  induction ls as [|x xs IH] using rev_ind; intros b l fuel Hs Hn Hk Hf.
  - destruct l; [|discriminate]. destruct fuel; [lia|]. simpl in *. destruct Hs as [_ ->].
    reflexivity.
  - destruct (snoc_inv _ l) as [->|(l' & k & ->)]; [rewrite map_app in Hk; destruct xs; discriminate|].
    rewrite !map_app in Hk. apply app_inj_tail in Hk. destruct Hk as [Hk1 Hk2].
    destruct fuel; [lia|].
    apply seg_app in Hs. destruct Hs as [Hs1 Hs2]. simpl in Hs2. destruct Hs2 as [_ Hs2].
    simpl. rewrite Hs2. destruct Nat.eq_dec as [->|Hne]; [exfalso; apply Hn, in_or_app; simpl; auto|].
    rewrite Hk2. rewrite (IH x l'); auto.
    + rewrite rev_app_distr. reflexivity.
    + intros X; apply Hn, in_or_app; auto.
    + rewrite app_length in Hf; simpl in Hf; lia.
Qed.

Lemma nodup_bound (L : list nat) n : NoDup L -> (forall x, In x L -> x < n) -> length L <= n.
Proof.
  intros H B. rewrite <- (seq_length n 0). apply NoDup_incl_length; auto.
  intros x Hx. apply in_seq. apply B in Hx. lia.
Qed.

Lemma inv_observe s l ls : Inv s l ls ->
  oiter s = Some l /\ oreversed s = Some (rev l) /\ olen s = length l
  /\ forall k, ocontains keq s k = true <-> In k l.
Proof.
  intros I. pose proof (inv_len _ _ _ I) as HL. destruct I as [Hseg Hnd Hlt Hkey Hknd Hmap].
  assert (Hf : length ls < fresh s).
  { apply nodup_bound with (n := fresh s) in Hnd; auto. }
  assert (He : ~ In end_ ls) by (inversion Hnd; auto).
  unfold oiter, oreversed, olen, ocontains. rewrite Hmap, combine_length.
  split; [apply iter_seg with (ls := ls); auto|].
  split; [apply riter_seg with (ls := ls); auto|].
  split; [lia|].
  intros k. destruct (mlookup keq k (combine l ls)) as [n|] eqn:E.
  - split; auto. intros _. destruct (mlookup_some _ _ _ _ HL E) as (l1 & l2 & _ & _ & -> & _).
    apply in_or_app; simpl; auto.
  - apply mlookup_none in E; auto. split; [discriminate|contradiction].
Qed.

Lemma remove_nil_notin (k : K) l : ~ In k l -> remove keq k l = l.
Proof. apply notin_remove. Qed.

Lemma inv_pop s l ls b : Inv s l ls ->
  fst (pop keq s b) = fst (spec_pop l b) /\ exists ls', Inv (snd (pop keq s b)) (snd (spec_pop l b)) ls'.
Proof.
  intros I. pose proof (inv_len _ _ _ I) as HL.
  destruct (inv_observe _ _ _ I) as (_ & _ & Hlen & _).
  unfold pop, spec_pop. rewrite Hlen.
  pose proof (inv_seg _ _ _ I) as Hseg. pose proof (inv_key _ _ _ I) as Hkey.
  pose proof (inv_knd _ _ _ I) as Hknd.
  destruct b.
  - rewrite (seg_last _ _ _ _ Hseg).
    destruct (snoc_inv _ l) as [El|(l' & k & El)]; rewrite El in *.
    + simpl. split; auto. exists ls. auto.
    + destruct (snoc_inv _ ls) as [Es|(ls' & x & Es)]; rewrite Es in *.
      { rewrite app_length in HL; simpl in HL; lia. }
      rewrite last_last. rewrite !map_app in Hkey. apply app_inj_tail in Hkey. destruct Hkey as [_ Hk].
      replace (Nat.eqb (length (l' ++ [k])) 0) with false
        by (symmetry; apply Nat.eqb_neq; rewrite app_length; simpl; lia).
      rewrite Hk. rewrite rev_app_distr. simpl. split; auto.
      rewrite rev_involutive.
      destruct (inv_discard _ _ _ k I) as [ls2 I2]. exists ls2.
      unfold spec_discard in I2. rewrite remove_split in I2 by auto. rewrite app_nil_r in I2. auto.
  - destruct l as [|k l'].
    + simpl. split; auto. exists ls. auto.
    + destruct ls as [|x ls']; [discriminate|]. simpl in Hseg. destruct Hseg as (H1 & _ & _).
      simpl in Hkey. injection Hkey as Hk _. simpl Nat.eqb. cbv iota.
      rewrite H1, Hk. simpl. split; auto.
      destruct (inv_discard _ _ _ k I) as [ls2 I2]. exists ls2.
      unfold spec_discard in I2. pose proof (remove_split k [] l' Hknd) as R. simpl app in R.
      rewrite R in I2. auto.
Qed.

Lemma inv_step s l ls o : Inv s l ls ->
  snd (step keq s o) = snd (spec_step keq l o)
  /\ exists ls', Inv (fst (step keq s o)) (fst (spec_step keq l o)) ls'.
Proof.
  intros I. destruct o as [k|k|b]; simpl.
  - split; auto. apply inv_add with (ls := ls); auto.
  - split; auto. apply inv_discard with (ls := ls); auto.
  - pose proof (inv_pop _ _ _ b I) as [H1 H2].
    destruct (pop keq s b), (spec_pop l b). simpl in *. subst. auto.
Qed.

Lemma inv_run os : forall s l ls, Inv s l ls ->
  snd (run keq s os) = snd (spec_run keq l os)
  /\ exists ls', Inv (fst (run keq s os)) (fst (spec_run keq l os)) ls'.
Proof.
  induction os as [|o os IH]; intros s l ls I; simpl.
  - split; auto. exists ls. auto.
  - destruct (inv_step _ _ _ o I) as [H1 [ls1 I1]].
    destruct (step keq s o) as [s1 r], (spec_step keq l o) as [l1 r']. simpl in *. subst r'.
    destruct (IH _ _ _ I1) as [H2 [ls2 I2]].
    destruct (run keq s1 os), (spec_run keq l1 os). simpl in *. subst. eauto.
Qed.

Theorem oset_refines os :
  let (s, outs) := run keq empty os in
  let (l, souts) := spec_run keq [] os in
  outs = souts /\ oiter s = Some l /\ oreversed s = Some (rev l) /\ olen s = length l
  /\ NoDup l /\ forall k, ocontains keq s k = true <-> In k l.
Proof.
  destruct (inv_run os empty [] [] inv_empty) as [H1 [ls I]].
  destruct (run keq empty os) as [s outs], (spec_run keq [] os) as [l souts]. simpl in *.
  split; auto. pose proof (inv_observe _ _ _ I) as (A & B & C & D).
  repeat split; auto; try apply D. apply (inv_knd _ _ _ I).
Qed.

End Proofs.
