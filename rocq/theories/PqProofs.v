From Verif Require Import Base QBase KDModel KDSpec KDProofs KD3Proofs KD4Proofs PqModel PqSpec.
From Coq Require Import List Lia Sorted.
Import ListNotations.
Open Scope nat_scope.

Lemma set_at {A} (pre : list A) y v post : set_nth (length pre) v (pre ++ y :: post) = pre ++ v :: post.
Proof. induction pre as [|x pre IH]; cbn [length app set_nth]; [reflexivity|]. rewrite IH. reflexivity. Qed.
Lemma set_at' {A} c (pre : list A) y v post : length pre = c -> set_nth c v (pre ++ y :: post) = pre ++ v :: post.
Proof. intros <-. apply set_at. Qed.
Definition pad (k : nat) (hits : list nb) : list (option Q) := map (fun h : nb => Some (fst h)) hits ++ repeat None (k - length hits).
Definition pad_i (n k : nat) (hits : list nb) : list nat := map snd hits ++ repeat n (k - length hits).
Lemma pad_length k hits : length hits <= k -> length (pad k hits) = k.
Proof. intros H. unfold pad. rewrite app_length, map_length, repeat_length. unfold nb in *. lia. Qed.
Lemma pad_i_length n k hits : length hits <= k -> length (pad_i n k hits) = k.
Proof. intros H. unfold pad_i. rewrite app_length, map_length, repeat_length. unfold nb in *. lia. Qed.
Lemma put_hits_spec n hits : forall k at_ pre post pre_i post_i, length pre = at_ -> length pre_i = at_ -> length hits <= k ->
  put_hits (pre ++ repeat None k ++ post) (pre_i ++ repeat n k ++ post_i) at_ hits = (pre ++ pad k hits ++ post, pre_i ++ pad_i n k hits ++ post_i).
Proof.
  induction hits as [|[d i] hits IH]; intros k at_ pre post pre_i post_i P PI L; cbn [put_hits].
  - unfold pad, pad_i. cbn [map app length]. rewrite Nat.sub_0_r. reflexivity.
  - cbn [length] in L. destruct k as [|k]; [lia|]. cbn [repeat app]. rewrite <- P at 1. rewrite set_at. rewrite <- PI at 1. rewrite set_at.
    replace (pre ++ Some d :: repeat None k ++ post) with ((pre ++ [Some d]) ++ repeat None k ++ post) by (rewrite <- app_assoc; reflexivity).
    replace (pre_i ++ i :: repeat n k ++ post_i) with ((pre_i ++ [i]) ++ repeat n k ++ post_i) by (rewrite <- app_assoc; reflexivity).
    rewrite IH by (rewrite ?app_length; cbn [length]; lia). unfold pad, pad_i. cbn [map length]. rewrite <- !app_assoc. reflexivity.
Qed.

Section Fill.
  Variables (pop : list entry -> option (entry * list entry)) (kd : kdtree) (eps : Q) (p : pnorm) (ub : option Q).
  Let n := length (kd_data kd).
  Lemma fill_spec k : forall xs hs c pre pre_i, 1 <= k -> Forall2 (fun x h => query pop kd x (Some k) eps p ub = Ok h /\ length h <= k) xs hs -> length pre = c * k -> length pre_i = c * k ->
    fill_numbers pop kd eps p ub k c xs (pre ++ repeat None (length xs * k)) (pre_i ++ repeat n (length xs * k)) = Ok (pre ++ concat (map (pad k) hs), pre_i ++ concat (map (pad_i n k) hs)).
  Proof.
    intros xs hs c pre pre_i K F. revert c pre pre_i. induction F as [|x h xs hs [E L] F IH]; intros c pre pre_i P PI; cbn [fill_numbers length Nat.mul map concat].
    - reflexivity.
    - unfold search. rewrite E. cbn [bind]. rewrite !repeat_app.
      assert (X : (if k =? 1 then match h with (d, i) :: _ => (set_nth c (Some d) (pre ++ repeat None k ++ repeat None (length xs * k)), set_nth c i (pre_i ++ repeat n k ++ repeat n (length xs * k)))
                                 | [] => (set_nth c None (pre ++ repeat None k ++ repeat None (length xs * k)), set_nth c (length (kd_data kd)) (pre_i ++ repeat n k ++ repeat n (length xs * k))) end
                   else put_hits (pre ++ repeat None k ++ repeat None (length xs * k)) (pre_i ++ repeat n k ++ repeat n (length xs * k)) (c * k) h)
                  = (pre ++ pad k h ++ repeat None (length xs * k), pre_i ++ pad_i n k h ++ repeat n (length xs * k))).
      { destruct (Nat.eqb_spec k 1) as [->|N]; [|apply put_hits_spec; auto]. rewrite Nat.mul_1_r in P, PI. cbn [repeat app].
        destruct h as [|[d i] [|h2 h]]; [| |cbn [length] in L; lia]; rewrite !set_at' by auto; reflexivity. }
      rewrite X. rewrite !app_assoc. rewrite IH by (rewrite app_length, ?pad_length, ?pad_i_length by auto; lia). rewrite <- !app_assoc. reflexivity.
  Qed.
  Lemma fill_lists_spec : forall xs hs c pre pre_i, Forall2 (fun x h => query pop kd x None eps p ub = Ok h) xs hs -> length pre = c -> length pre_i = c ->
    fill_lists pop kd eps p ub c xs (pre ++ repeat [] (length xs)) (pre_i ++ repeat [] (length xs)) = Ok (pre ++ map (map fst) hs, pre_i ++ map (map snd) hs).
  Proof.
    intros xs hs c pre pre_i F. revert c pre pre_i. induction F as [|x h xs hs E F IH]; intros c pre pre_i P PI; cbn [fill_lists length map repeat].
    - rewrite !app_nil_r. reflexivity.
    - unfold search. rewrite E. cbn [bind]. rewrite !set_at' by auto.
      replace (pre ++ map fst h :: repeat [] (length xs)) with ((pre ++ [map fst h]) ++ repeat [] (length xs)) by (rewrite <- app_assoc; reflexivity).
      replace (pre_i ++ map snd h :: repeat [] (length xs)) with ((pre_i ++ [map snd h]) ++ repeat [] (length xs)) by (rewrite <- app_assoc; reflexivity).
      rewrite IH by (rewrite app_length; cbn [length]; lia). rewrite <- !app_assoc. reflexivity.
  Qed.
End Fill.

Lemma concat_part {A B} (f : B -> list A) k hs : (forall h, In h hs -> length (f h) = k) -> forall c h, nth_error hs c = Some h -> part k c (concat (map f hs)) = f h.
Proof.
  unfold part. induction hs as [|h0 hs IH]; intros L c h E; [destruct c; discriminate|]. cbn [map concat]. destruct c as [|c].
  - cbn in E. injection E as ->. cbn [Nat.mul]. rewrite skipn_O, firstn_app, (L h) by (left; auto). rewrite Nat.sub_diag, firstn_O, app_nil_r. apply firstn_all2. rewrite (L h) by (left; auto). lia.
  - cbn [nth_error] in E. cbn [Nat.mul]. rewrite skipn_app, (L h0) by (left; auto). replace (k + c * k - k) with (c * k) by lia. rewrite skipn_all2 by (rewrite (L h0) by (left; auto); lia).
    cbn [app]. apply IH; auto. intros h' H'. apply L. right. exact H'.
Qed.
Lemma concat_length_k {A B} (f : B -> list A) k hs : (forall h, In h hs -> length (f h) = k) -> length (concat (map f hs)) = length hs * k.
Proof. induction hs as [|h hs IH]; intros L; cbn [map concat length Nat.mul]; [reflexivity|]. rewrite app_length, L, IH; auto; [|left; auto]. intros h' H'. apply L. right. exact H'. Qed.
Lemma forall2_choice {A B} (P : A -> B -> Prop) l : Forall (fun x => exists y, P x y) l -> exists m, Forall2 P l m.
Proof. induction 1 as [|x l [y Y] F [m IH]]; [exists []; constructor|]. exists (y :: m). constructor; auto. Qed.
Lemma forall2_at {A B} (P : A -> B -> Prop) l m : Forall2 P l m -> forall c x, nth_error l c = Some x -> exists y, nth_error m c = Some y /\ P x y.
Proof. induction 1 as [|x y l m XY F IH]; intros [|c] z E; try discriminate; cbn in E; [injection E as <-; exists y; auto|apply IH; exact E]. Qed.
Lemma forall2_same_length {A B} (P : A -> B -> Prop) l m : Forall2 P l m -> length l = length m.
Proof. induction 1; cbn; lia. Qed.
