(** When two set tries should count as equal, in terms of the sets inserted into them. *)
From Verif.Model Require Import PyBase Trie.
From Verif.Spec Require Import STrie.

(** The same non-empty sets were inserted, in whatever order and grouping. *)
Definition same_inserted (ops1 ops2 : list trie_op) : Prop :=
  forall s : list Z, s <> [] ->
    ((exists s1, s1 ∈ inserted ops1 /\ same_set s1 s) <-> (exists s2, s2 ∈ inserted ops2 /\ same_set s2 s)).

(** [p] consists of the smallest elements of some inserted set, in increasing order. *)
Definition initial_part (ops : list trie_op) (p : list Z) : Prop :=
  exists s tup, s ∈ inserted ops /\ sorted_tuple_of s tup /\ p `prefix_of` tup.
