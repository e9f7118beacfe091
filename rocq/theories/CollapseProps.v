(** C36: the theorems. *)
From Coq Require Import String.
From Verif Require Import Base PyStr QBase IndexSpec CollapseModel CollapseSpec CollapseProofs.
From Coq Require Import List.
Import ListNotations.
Open Scope string_scope. Open Scope list_scope. Open Scope nat_scope. Notation length := List.length.

(** the dimensions of a coordinate: those left keep their order and get their place among the dimensions left of the cube *)
Theorem C36_new_dims : forall n dims cd, NoDup dims -> Forall (fun d => d < n) cd -> exists left, StronglySorted lt left /\ (forall k, In k left <-> exists d, nth_error cd k = Some d /\ ~ In d dims) /\
  Forall2 (fun k new => exists d, nth_error cd k = Some d /\ renumbered n dims d new) left (calc_new_dims cd dims).
Proof. exact new_dims. Qed.
Print Assumptions C36_new_dims.
Example C36_new_dims_example : calc_new_dims [4; 0; 2; 3] [3; 1] = [2; 0; 1].
Proof. reflexivity. Qed.
(** collapsing the cube *)
Theorem C36_collapse_partial : forall (A B : Type) (da : A) (db : B) kernel c coords dims, right_cube c -> collapse_dims c coords dims -> Forall (same_places dims) (cb_coords c) ->
  exists out, full_collapse da kernel c coords = Ok out /\ right_collapse da db kernel c dims out.
Proof. exact @collapse_right. Qed.
Print Assumptions C36_collapse_partial.
(** several kernels: one result for each, in order *)
Theorem C36_kernels_partial : forall (A B : Type) (da : A) (db : B) kernels c coords dims, right_cube c -> collapse_dims c coords dims -> Forall (same_places dims) (cb_coords c) ->
  exists outs, collapse_kernels da kernels c coords = Ok outs /\ Forall2 (fun f out => right_collapse da db f c dims out) kernels outs.
Proof. exact @collapse_each. Qed.
Print Assumptions C36_kernels_partial.

(** latitude, longitude, time, and the surface altitude by latitude and longitude *)
Definition line (name : string) (d : nat) (p : list Q) : gcoord := mkGC (lit name) [d] (mkArr [length p] p).
Definition surface (dims : list nat) (nx ny : nat) : gcoord := mkGC (lit "surface_altitude") dims (mkArr [nx; ny] (map (fun k => inject_Z (Z.of_nat (S k))) (seq 0 (nx * ny)))).
Definition the_cube (dims : list nat) : cube Q :=
  mkCube (mkArr [2; 3; 2] (map (fun k => inject_Z (Z.of_nat k)) (seq 0 12))) [line "latitude" 0 [0%Q; 1%Q]; line "longitude" 1 [0%Q; 1%Q; 2%Q]; line "time" 2 [0%Q; 1%Q]; surface dims (nth (nth 0 dims 0) [2; 3; 2] 0) (nth (nth 1 dims 0) [2; 3; 2] 0)].
Example C36_collapse_example : right_cube (the_cube [0; 1]) /\ collapse_dims (the_cube [0; 1]) [0] [0] /\ Forall (same_places [0]) (cb_coords (the_cube [0; 1])) /\
  match full_collapse 0%Q mean_of (the_cube [0; 1]) [0] with Ok out => (a_shape (cb_data out), map Qred (a_flat (cb_data out)), map (fun k => (gc_dims k, map Qred (a_flat (gc_points k)))) (cb_coords out)) | Raises _ => ([], [], []) end =
    ([3; 2], [3; 4; 5; 6; 7; 8]%Q, [([], [(1#2)%Q]); ([0], [0; 1; 2]%Q); ([1], [0; 1]%Q); ([0], [(5#2); (7#2); (9#2)]%Q)]).
Proof.
  split; [|split; [|split; [|vm_compute; reflexivity]]].
  - split; [reflexivity|]. repeat constructor; cbn; intuition (try discriminate; try lia).
  - split; [repeat constructor|]. intros d. cbn. split; [intros [<-|[]]; split; [lia|]; exists 0, (line "latitude" 0 [0%Q; 1%Q]); cbn; auto|]. intros (_ & k & x & [<-|[]] & [= <-] & [<-|[]]). auto.
  - repeat constructor; intros (d & D1 & D2) (e & E1 & E2) f [<-|[]]; try reflexivity; exfalso; cbn in D1, D2, E1, E2; intuition (subst; try discriminate; auto).
Qed.

(** the full statement is about all coordinates.  The dimensions of the cube are taken for those of the coordinate: with the surface altitude over
    longitude and time, collapsing the longitude averages it over time, which is wrong if both have the same size and an error otherwise; an error too if a
    collapsed dimension is not one of the coordinate's *)
Definition square_cube : cube Q := mkCube (mkArr [2; 2; 2] (repeat 0%Q 8)) [line "time" 0 [0%Q; 1%Q]; line "latitude" 1 [0%Q; 1%Q]; line "longitude" 2 [0%Q; 1%Q]; surface [1; 2] 2 2].
Theorem C36_refuted :
  (exists out, right_cube square_cube /\ collapse_dims square_cube [1] [1] /\ full_collapse 0%Q mean_of square_cube [1] = Ok out /\ ~ right_collapse 0%Q 0%Q mean_of square_cube [1] out /\
    map (fun k => map Qred (a_flat (gc_points k))) (filter (fun k => str_eqb (gc_name k) (lit "surface_altitude")) (cb_coords out)) = [[(3#2); (7#2)]%Q]) /\
  (right_cube (the_cube [1; 2]) /\ full_collapse 0%Q mean_of (the_cube [1; 2]) [1] = Raises ValueError) /\
  (right_cube (the_cube [0; 1]) /\ full_collapse 0%Q mean_of (the_cube [0; 1]) [0; 2] = Raises IndexError).
Proof.
  split; [|split; (split; [|reflexivity])].
  - destruct (full_collapse 0%Q mean_of square_cube [1]) as [out|] eqn:E; vm_compute in E; [|discriminate]. injection E as <-. eexists. split; [|split; [|split; [reflexivity|split; [|reflexivity]]]].
    + split; [reflexivity|]. repeat constructor; cbn; intuition (try discriminate; try lia).
    + split; [repeat constructor|]. intros d. cbn. split; [intros [<-|[]]; split; [lia|]; exists 1, (line "latitude" 1 [0%Q; 1%Q]); cbn; auto|]. intros (_ & k & x & [<-|[]] & [= <-] & [<-|[]]). auto.
    + intros (_ & l & P & F). cbn [cb_coords] in P, F. set (s := surface [1; 2] 2 2) in *.
      assert (X : exists x, In x l /\ right_coord 3 [1] s x) by (inversion F as [|? ? ? ? _ F1]; subst; inversion F1 as [|? ? ? ? _ F2]; subst; inversion F2 as [|? ? ? ? _ F3]; subst; inversion F3 as [|? x ? ? R _]; subst; exists x; split; [cbn; tauto|exact R]).
      destruct X as (x & Hx & NM & _ & _ & R). apply (Permutation.Permutation_in _ P) in Hx. cbn [In] in Hx. rewrite app_nil_r in Hx || idtac. repeat (destruct Hx as [Hx|Hx]; [subst x; try (vm_compute in NM; discriminate NM)|]); try contradiction.
      destruct R as [_ (own & f & [SO HO] & AV & W & r & LO & SH & V)]; [exists 1; cbn; auto|exists 2; cbn; split; auto; intuition discriminate|].
      assert (own = [0]). { apply sorted_unique; auto; [repeat constructor|]. intros k. rewrite HO. cbn. split; [intros (d & H & [<-|[]]); destruct k as [|[|[|k]]]; try discriminate H; auto|intros [<-|[]]; exists 1; cbn; auto]. }
      subst own. apply left_over_unique in LO. cbn in LO. subst r. destruct (V [0]) as (idxs & N & M & E); [repeat constructor|]. cbn in M.
      assert (idxs = [[0; 0]; [1; 0]] \/ idxs = [[1; 0]; [0; 0]]).
      { assert (PP : Permutation.Permutation idxs [[0; 0]; [1; 0]]).
        { apply Permutation.NoDup_Permutation; auto; [repeat constructor; cbn; intuition discriminate|]. intros i. rewrite M. split.
          - intros [VI EI]. inversion VI as [|i0 ? i' ? L0 V']; subst. inversion V' as [|i1 ? i'' ? L1 V'']; subst. inversion V''; subst. cbn in EI. injection EI as ->. destruct i0 as [|[|i0]]; [cbn; auto|cbn; auto|lia].
          - intros [<-|[<-|[]]]; split; repeat constructor. }
        apply Permutation.Permutation_sym, Permutation.Permutation_length_2_inv in PP. auto. }
      assert (NN : forall (x y : Q), [x; y] <> []) by discriminate. destruct H as [-> | ->]; cbn [map] in E; match type of E with _ = f [?x; ?y] => assert (AV' := AV [x; y] (NN x y)) end; rewrite <- E in AV'; vm_compute in AV'; discriminate AV'.
  - split; [reflexivity|]. repeat constructor; cbn; intuition (try discriminate; try lia).
  - split; [reflexivity|]. repeat constructor; cbn; intuition (try discriminate; try lia).
Qed.
Print Assumptions C36_refuted.
