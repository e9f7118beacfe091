(** Property C02 - index iteration enumerates an array row-major, each cell once. *)
From Verif Require Import Base IndexModel IndexSpec IndexProofs.

(** The iterator yields exactly the valid index tuples of the shape, each once, in row-major order. *)
Theorem C02_index_iterator_enumerates : forall shape,
  (forall idx, In idx (index_iterator shape) <-> valid_index shape idx)
  /\ NoDup (index_iterator shape) /\ StronglySorted lex_lt (index_iterator shape)
  /\ length (index_iterator shape) = cells shape.
Proof. exact index_iterator_spec. Qed.
Print Assumptions C02_index_iterator_enumerates.

(** The i-th tuple yielded is the cell at flat position i of the C-ordered array. *)
Theorem C02_index_iterator_position : forall shape i idx,
  nth_error (index_iterator shape) i = Some idx -> flat_pos shape idx = i.
Proof. exact nth_index_iterator. Qed.
Print Assumptions C02_index_iterator_position.

(** [np.unravel_index] as used by the hyperpoint views inverts the flat position, and rejects exactly the flat
    positions that belong to no cell. *)
Theorem C02_unravel_index_inverts : forall shape i,
  match unravel_index i shape with
  | Ok idx => valid_index shape idx /\ flat_pos shape idx = i
  | Raises e => e = ValueError /\ ~ exists idx, valid_index shape idx /\ flat_pos shape idx = i
  end.
Proof. exact unravel_index_spec. Qed.
Print Assumptions C02_unravel_index_inverts.

Example C02_example :
  index_iterator [2; 3] = [[0;0]; [0;1]; [0;2]; [1;0]; [1;1]; [1;2]]
  /\ index_iterator [2; 0; 3] = [] /\ index_iterator [] = [[]]
  /\ unravel_index 4 [2; 3] = Ok [1; 1] /\ unravel_index 6 [2; 3] = Raises ValueError.
Proof. vm_compute. repeat split. Qed.
