From Coq Require Import String.
From Verif Require Import Base PyStr QBase FileListModel ParseModel ParseSpec DateModel ReModel ReProofs ArgsModel ArgsSpec ArgsProofs Args2Proofs.
From Coq Require Import List.
Import ListNotations.
Open Scope string_scope. Open Scope list_scope. Open Scope nat_scope. Notation length := List.length.

Lemma limit_piece_unique E seg k v k' v' : limit_piece E seg k v -> limit_piece E seg k' v' -> k = k' /\ v = v'.
Proof. intros A B. apply subset_segment_iff in A, B. rewrite A in B. inversion B. auto. Qed.
Lemma grid_piece_unique E seg k v k' v' : grid_piece E seg k v -> grid_piece E seg k' v' -> k = k' /\ v = v'.
Proof. intros A B. apply grid_segment_iff in A, B. rewrite A in B. inversion B. auto. Qed.
Lemma meaning_unique {V} (piece : str -> str -> V -> Prop) (U : forall seg k v k' v', piece seg k v -> piece seg k' v' -> k = k' /\ v = v') segs p p' :
  meaning piece segs p -> meaning piece segs p' -> p = p'.
Proof.
  intros M. revert p'. induction M as [|seg [k v] segs pairs H M IH]; intros p' M'; inversion M' as [|? [k' v'] ? ? H' M'']; subst; auto.
  simpl in H, H'. destruct (U _ _ _ _ _ H H') as [-> ->]. f_equal. auto.
Qed.
Lemma nothing_ignored E text d pieces pairs : get_subset_limits E text = Ok d -> cut_at_commas text pieces ->
  meaning (limit_piece E) pieces pairs -> NoDup (map fst pairs) -> forall kv, In kv d <-> In kv pairs.
Proof.
  intros G C M ND [k v]. pose proof (get_subset_limits_spec E text) as S. rewrite G in S. destruct S as (pieces' & pairs' & C' & _ & M' & (_ & D)).
  apply cut_at_commas_iff in C, C'. subst. assert (pairs' = pairs) as -> by (eapply meaning_unique; eauto using limit_piece_unique).
  rewrite D. split.
  - intros (p1 & p2 & -> & _). rewrite in_app_iff. simpl. auto.
  - intros I. apply in_split in I. destruct I as (p1 & p2 & ->). exists p1, p2. split; auto. rewrite map_app in ND. simpl in ND. apply NoDup_remove_2 in ND.
    rewrite in_app_iff in ND. tauto.
Qed.
Definition ints : readers := mkReaders (fun s => match int_of s with Ok z => Some (inject_Z z) | Raises _ => None end) (fun _ => None).
Lemma limits_refuted : exists E,
  (exists l, get_subset_limits E (lit "y=[1,2],y=[3,4]") = Ok [(lit "y", l)] /\ limit_piece E (lit "y=[3,4]") (lit "y") l /\ ~ limit_piece E (lit "y=[1,2]") (lit "y") l)
  /\ get_subset_limits E (lit "shape_factor=[1,2]") = Ok [(lit "shape", ShapeText (lit "[1,2]"))]
  /\ get_subset_limits E (lit "x=[10]") = Raises TypeError /\ get_subset_limits E (lit "shape") = Raises IndexError.
Proof.
  exists ints. split; [|vm_compute; auto]. exists (Between (Some (VNum 3)) (Some (VNum 4))). split; [vm_compute; auto|]. split.
  - apply subset_segment_iff. vm_compute. auto.
  - intros H. apply subset_segment_iff in H. vm_compute in H. discriminate.
Qed.
Lemma grid_refuted : exists E,
  get_aggregate_grid E (lit "x=[0,360,30") = Ok [(lit "x", None)] /\ get_aggregate_grid E (lit "x=[10,]") = Ok [(lit "x", None)]
  /\ get_aggregate_grid E (lit "x[0,360,30]") = Ok [(lit "x[0,360,30]", None)]
  /\ get_aggregate_grid E (lit "x=[0,360,30]*2") = get_aggregate_grid E (lit "x=[0,360,30]") /\ (exists g, get_aggregate_grid E (lit "x=[0,360,30]") = Ok [(lit "x", Some g)]).
Proof. exists ints. repeat split; try (vm_compute; reflexivity). eexists. vm_compute. reflexivity. Qed.
