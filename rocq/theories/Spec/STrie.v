(** What a set trie should answer, in terms of the sets that were inserted. *)
From Verif.Model Require Import PyBase Trie.

(** All sets passed to insert / insert_batch. *)
Definition inserted (ops : list trie_op) : list (list Z) :=
  concat (map (fun op => match op with Insert s => [s] | InsertBatch ss => ss end) ops).

(** Sets inserted by the time of the last insert_batch call. *)
Definition batched (ops : list trie_op) (s : list Z) : Prop :=
  exists ops1 ss ops2, ops = ops1 ++ InsertBatch ss :: ops2 /\ s ∈ inserted ops1 ++ ss.

(** The same elements. *)
Definition same_set (s t : list Z) : Prop := forall x, x ∈ s <-> x ∈ t.

(** [tup] is the sorted tuple of the elements of [s]. *)
Definition sorted_tuple_of (s tup : list Z) : Prop := StronglySorted Z.lt tup /\ same_set s tup.

(** Every inserted collection is a set: no repeated element. *)
Definition sets_only (ops : list trie_op) : Prop := forall s, s ∈ inserted ops -> NoDup s.
