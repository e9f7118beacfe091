(** C17, C18, C19: the kd-tree. *)
From Verif Require Import Base QBase KDModel KDSpec KDProofs KD4Proofs.
Open Scope Q_scope.

(** C17: query_ball_point(x, r) returns exactly the indices of the points at distance at most r, each once,
    for every leaf size the tree was built with. *)
Theorem C17_ball_point_exact : forall data m leafsize kd, (0 < m)%nat -> rows_of_length m data -> KDTree data leafsize = Ok kd ->
  forall x r p, length x = m ->
  exists hits, query_ball_point kd x r p 0 = Ok hits /\ exact_list (fun i => (i < length data)%nat /\ close p (nth i data []) x r) hits.
Proof. exact query_ball_point_exact. Qed.
Print Assumptions C17_ball_point_exact.

(** with a tolerance eps: everything within r/(1+eps), nothing beyond r*(1+eps) *)
Theorem C17_ball_point_eps : forall data m leafsize kd, (0 < m)%nat -> rows_of_length m data -> KDTree data leafsize = Ok kd ->
  forall x r p eps, 0 <= eps -> length x = m ->
  exists hits, query_ball_point kd x r p eps = Ok hits /\ NoDup hits /\
    (forall i, In i hits -> (i < length data)%nat /\ close p (nth i data []) x (r * (1 + eps))) /\
    (forall i, (i < length data)%nat -> close p (nth i data []) x (r / (1 + eps)) -> In i hits).
Proof. exact query_ball_point_spec. Qed.
Print Assumptions C17_ball_point_eps.

Theorem C17_ball_point_wrong_length : forall data m leafsize kd, (0 < m)%nat -> rows_of_length m data -> KDTree data leafsize = Ok kd ->
  forall x r p eps, length x <> m -> query_ball_point kd x r p eps = Raises ValueError.
Proof. exact query_ball_point_wrong. Qed.
Print Assumptions C17_ball_point_wrong_length.

(** query_ball_tree: one list per point of the first tree, with exactly the points of the second within r *)
Theorem C17_ball_tree_exact : forall d1 d2 m ls1 ls2 k1 k2, (0 < m)%nat -> rows_of_length m d1 -> rows_of_length m d2 ->
  KDTree d1 ls1 = Ok k1 -> KDTree d2 ls2 = Ok k2 -> forall r p,
  length (query_ball_tree k1 k2 r p 0) = length d1 /\
  forall i, (i < length d1)%nat -> exact_list (fun j => (j < length d2)%nat /\ close p (nth i d1 []) (nth j d2 []) r) (nth i (query_ball_tree k1 k2 r p 0) []).
Proof. exact query_ball_tree_exact. Qed.
Print Assumptions C17_ball_tree_exact.

(** query_pairs: exactly the pairs (i, j), i < j, within r of each other *)
Theorem C17_pairs_exact : forall data m leafsize kd, (0 < m)%nat -> rows_of_length m data -> KDTree data leafsize = Ok kd ->
  forall r p a b, In (a, b) (query_pairs kd r p 0) <-> (a < b < length data)%nat /\ close p (nth a data []) (nth b data []) r.
Proof. exact query_pairs_exact. Qed.
Print Assumptions C17_pairs_exact.

(** count_neighbors: for each radius, the number of pairs within it *)
Theorem C17_count_exact : forall d1 d2 m ls1 ls2 k1 k2, (0 < m)%nat -> rows_of_length m d1 -> rows_of_length m d2 ->
  KDTree d1 ls1 = Ok k1 -> KDTree d2 ls2 = Ok k2 -> forall rs p,
  length (count_neighbors k1 k2 rs p) = length rs /\
  forall q, (q < length rs)%nat -> exists pairs, NoDup pairs /\
    (forall i j, In (i, j) pairs <-> (i < length d1)%nat /\ (j < length d2)%nat /\ close p (nth i d1 []) (nth j d2 []) (nth q rs 0)) /\
    nth q (count_neighbors k1 k2 rs p) 0%nat = length pairs.
Proof. exact count_neighbors_spec. Qed.
Print Assumptions C17_count_exact.

(** sparse_distance_matrix: exactly the pairs within r, with their distances *)
Theorem C17_sparse_exact : forall d1 d2 m ls1 ls2 k1 k2, (0 < m)%nat -> rows_of_length m d1 -> rows_of_length m d2 ->
  KDTree d1 ls1 = Ok k1 -> KDTree d2 ls2 = Ok k2 -> forall r p,
  exists pairs, NoDup pairs /\
    (forall i j, In (i, j) pairs <-> (i < length d1)%nat /\ (j < length d2)%nat /\ close p (nth i d1 []) (nth j d2 []) r) /\
    Forall2 (fun (ij : nat * nat) (e : nat * nat * Q) => fst e = ij /\ snd e == distance_power p (nth (fst ij) d1 []) (nth (snd ij) d2 [])) pairs (sparse_distance_matrix k1 k2 r p).
Proof. exact sparse_spec. Qed.
Print Assumptions C17_sparse_exact.

(** C18: building succeeds and the leaves partition the indices; each leaf is on the right side of every split above it,
    and holds at most leafsize points unless its points share a coordinate. *)
Theorem C18_partition_partial : forall data m leafsize, (0 < m)%nat -> rows_of_length m data -> data <> [] -> (1 <= leafsize)%Z ->
  exists kd, KDTree data leafsize = Ok kd /\ Permutation (concat (leaf_lists (kd_tree kd))) (seq 0 (length data)) /\
    splits_ok data m (kd_tree kd) /\
    Forall (fun l => (length l <= Z.to_nat leafsize)%nat \/ share_a_coordinate data m l) (leaf_lists (kd_tree kd)).
Proof. exact build_partition. Qed.
Print Assumptions C18_partition_partial.

Theorem C18_rejects : forall data leafsize, (leafsize < 1)%Z \/ data = [] -> KDTree data leafsize = Raises ValueError.
Proof. exact build_rejects. Qed.
Print Assumptions C18_rejects.

Definition corners : list (list Q) := [[0; 0]; [0; 1]; [10; 0]; [10; 1]].
(** "at most leafsize points unless all coincide" is false: splitting stops as soon as the points agree along the widest dimension. *)
Theorem C18_leafsize_refuted : exists data kd l i j, rows_of_length 2 data /\ KDTree data 1 = Ok kd /\ In l (leaf_lists (kd_tree kd)) /\
  (1 < length l)%nat /\ In i l /\ In j l /\ ~ Forall2 Qeq (nth i data []) (nth j data []).
Proof.
  exists corners. eexists. exists [0; 1]%nat, 0%nat, 1%nat. split; [repeat constructor|]. split; [vm_compute; reflexivity|]. split; [left; reflexivity|].
  split; [cbn; lia|]. split; [cbn; auto|]. split; [cbn; auto|]. intros H. inversion H; subst. inversion H5; subst. vm_compute in H4. discriminate.
Qed.
Print Assumptions C18_leafsize_refuted.

(** C19: query(x, k) returns the k smallest distances (as p-th powers; all of them if there are fewer than k points),
    ascending, with distinct indices attaining them; whatever entry of least distance the heap pops. *)
Theorem C19_query_exact : forall pop data m leafsize kd x k p, heap_pop_contract pop ->
  (0 < m)%nat -> rows_of_length m data -> KDTree data leafsize = Ok kd -> length x = m -> (1 <= k)%nat -> p <> PN 0 ->
  exists hits, query pop kd x (Some k) 0 p None = Ok hits /\ length hits = Nat.min k (length data) /\
    NoDup (map snd hits) /\ StronglySorted (fun a b : Q * nat => fst a <= fst b) hits /\
    Forall (fun h => (snd h < length data)%nat /\ fst h == distance_power p (nth (snd h) data []) x) hits /\
    (forall i, (i < length data)%nat -> ~ In i (map snd hits) -> Forall (fun h => fst h <= distance_power p (nth i data []) x) hits).
Proof. exact query_exact_spec. Qed.
Print Assumptions C19_query_exact.

(** with an accuracy eps and an upper bound: everything left out is either (up to the factor 1+eps) beyond the bound, or
    the k hits are (up to that factor) at least as near *)
Theorem C19_query_eps_bound : forall pop data m leafsize kd x k eps p dub, heap_pop_contract pop ->
  (0 < m)%nat -> rows_of_length m data -> KDTree data leafsize = Ok kd -> length x = m -> (1 <= k)%nat -> p <> PN 0 -> 0 <= eps ->
  match dub with Some u => 0 <= u | None => True end ->
  exists hits, query pop kd x (Some k) eps p dub = Ok hits /\ (length hits <= k)%nat /\
    NoDup (map snd hits) /\ StronglySorted (fun a b : Q * nat => fst a <= fst b) hits /\
    Forall (fun h => (snd h < length data)%nat /\ fst h == distance_power p (nth (snd h) data []) x /\ match dub with Some u => fst h < pw p u | None => True end) hits /\
    (forall i, (i < length data)%nat -> ~ In i (map snd hits) ->
      match dub with Some u => pw p u <= distance_power p (nth i data []) x * pw p (1 + eps) | None => False end \/
      (length hits = k /\ Forall (fun h => fst h <= distance_power p (nth i data []) x * pw p (1 + eps)) hits)).
Proof. exact query_general_spec. Qed.
Print Assumptions C19_query_eps_bound.

(** the hypotheses are met: a heap satisfying the contract, and trees with several levels *)
Example C19_heap_exists : heap_pop_contract pop_min.
Proof. exact pop_min_contract. Qed.
Definition line : list (list Q) := map (fun z => [inject_Z z; inject_Z (z * z)]) [0; 3; 1; 4; 1; 5; 9; 2; 6]%Z.
Example C17_example : rows_of_length 2 line /\ exists kd, KDTree line 2 = Ok kd /\ (3 <? length (leaf_lists (kd_tree kd)))%nat = true /\
  query_ball_point kd [1; 1] 3 (PN 2) 0 = Ok [0; 2; 4]%nat /\ query_ball_point kd [1; 1] 3 PInf 0 = Ok [0; 2; 4; 7]%nat /\
  count_neighbors kd kd [2; 100] (PN 1) = [15; 81]%nat.
Proof.
  split; [repeat constructor|]. destruct (KDTree line 2) as [kd|] eqn:E; [|vm_compute in E; discriminate]. exists kd. split; [reflexivity|].
  vm_compute in E. injection E as <-. split; [vm_compute; reflexivity|]. split; [vm_compute; reflexivity|]. split; vm_compute; reflexivity.
Qed.
Example C19_example : exists kd, KDTree line 2 = Ok kd /\ query pop_min kd [1; 1] (Some 3%nat) 0 (PN 2) None = Ok [(0, 2%nat); (0, 4%nat); (2, 0%nat)].
Proof. destruct (KDTree line 2) as [kd|] eqn:E; [|vm_compute in E; discriminate]. exists kd. split; [reflexivity|]. vm_compute in E. injection E as <-. vm_compute. reflexivity. Qed.
