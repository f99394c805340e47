(** C81: comparing tries. *)
From Verif.Model Require Import PyBase Trie TrieEq.
From Verif.Spec Require Import STrie STrieEq.
From Verif.Proofs Require Import PBase PTrie T_Trie.
Open Scope Z_scope.
From Verif.Proofs Require Import T_TrieEq.
Open Scope Z_scope.

(** C81. Two tries compare equal iff the same non-empty sets were inserted into them: the order of the insertions, their
    repetition, their grouping into batches and whether the sets were populated do not matter. *)
Theorem C81_equal : forall (ops1 ops2 : list trie_op),
  sets_only ops1 -> sets_only ops2 ->
  exists t1 t2, run_trie ops1 = Ok t1 /\ run_trie ops2 = Ok t2 /\
    (node_eq t1 t2 = true <-> same_inserted ops1 ops2).
Proof. exact C81_equal_proof. Qed.
Print Assumptions C81_equal.

(** C81, nested tuples: as_nested_tuple shows only which initial parts (in increasing order) of inserted sets exist, not which of them were
    inserted.  So equal tries have equal tuples, but inserting a non-empty initial part of a stored set never changes the
    tuple, although it makes the trie compare different when that set was not stored before. *)
Theorem C81_nested_tuple : forall (ops1 ops2 : list trie_op),
  sets_only ops1 -> sets_only ops2 ->
  exists t1 t2, run_trie ops1 = Ok t1 /\ run_trie ops2 = Ok t2 /\
    (as_nested_tuple None t1 = as_nested_tuple None t2 <->
     forall p, p <> [] -> (initial_part ops1 p <-> initial_part ops2 p)) /\
    (node_eq t1 t2 = true -> as_nested_tuple None t1 = as_nested_tuple None t2).
Proof. exact C81_nested_tuple_proof. Qed.
Print Assumptions C81_nested_tuple.

(** C81, an initial part that was not inserted itself: adding it gives the same tuple and an unequal trie. *)
Theorem C81_tuple_misses_end_marks : forall (ops : list trie_op) (p : list Z),
  sets_only ops -> p <> [] -> initial_part ops p -> (~ exists s, s ∈ inserted ops /\ same_set s p) ->
  exists t1 t2, run_trie ops = Ok t1 /\ run_trie (ops ++ [Insert p]) = Ok t2 /\
    as_nested_tuple None t1 = as_nested_tuple None t2 /\ node_eq t1 t2 = false.
Proof. exact C81_tuple_misses_end_marks_proof. Qed.
Print Assumptions C81_tuple_misses_end_marks.


Definition exA : list trie_op := [Insert [2;1]; InsertBatch [[3;1;2]; [2]]].
Definition exB : list trie_op := [InsertBatch [[2]; [1;3;2]]; Insert []; Insert [1;2]; Insert [2]].
Definition exC : list trie_op := [Insert [2]; Insert [1;3;2]].
Definition trie_of (ops : list trie_op) : node := match run_trie ops with Ok t => t | Err _ => trie_empty end.
Ltac sets_by_compute := intros s H; apply (bool_decide_unpack (NoDup s)); revert s H; apply Forall_forall; vm_compute;
  repeat constructor.
Example ex_sets : sets_only exA /\ sets_only exB /\ sets_only exC.
Proof. split_and!; sets_by_compute. Qed.
Example C81_ex_equal : node_eq (trie_of exA) (trie_of exB) = true /\ trie_of exA <> trie_of exB.
Proof. split; vm_compute; [reflexivity|discriminate]. Qed.
Example C81_ex_nested :
  as_nested_tuple None (trie_of exA) = as_nested_tuple None (trie_of exC) /\ node_eq (trie_of exA) (trie_of exC) = false /\
  as_nested_tuple None (trie_of exC) =
    PTuple [PItem None;
            PTuple [PItem (Some 1); PTuple [PItem (Some 2); PTuple [PItem (Some 3); PTuple []]]];
            PTuple [PItem (Some 2); PTuple []]].
Proof. vm_compute. split_and!; reflexivity. Qed.
Example C81_ex_initial : initial_part exC [1;2] /\ ~ exists s, s ∈ inserted exC /\ same_set s [1;2].
Proof.
  split.
  - exists [1;3;2], [1;2;3]. split_and!.
    + vm_compute. right. left.
    + split; [repeat constructor|]. intros x. rewrite !elem_of_cons. split; intros; naive_solver.
    + by exists [3].
  - intros (s & Hin & H). vm_compute in Hin. apply elem_of_cons in Hin as [->|Hin].
    + specialize (H 1). rewrite !elem_of_cons in H. destruct H as [_ H]. specialize (H (or_introl eq_refl)).
      destruct H as [H|H]; [discriminate|inversion H].
    + apply elem_of_list_singleton in Hin as ->. specialize (H 3). rewrite !elem_of_cons in H. destruct H as [H _].
      destruct H as [H|[H|H]]; [naive_solver|discriminate..|inversion H].
Qed.
