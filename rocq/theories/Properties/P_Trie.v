(** Properties of the set trie (C14-C18). *)
From Verif.Model Require Import PyBase Trie.
From Verif.Spec Require Import STrie.
Open Scope Z_scope.
From Verif.Proofs Require Import T_Trie.
Open Scope Z_scope.

(** C14. After any history, exact search says whether the query is non-empty and was inserted.  Inserted
    collections and queries are Python sets, given here as lists without repetition in any order. *)
Theorem C14_search_exact : forall (ops : list trie_op) (q : list Z),
  sets_only ops -> NoDup q ->
  exists t b, run_trie ops = Ok t /\ search t q = Ok b /\
    (b = true <-> q <> [] /\ exists s, s ∈ inserted ops /\ same_set s q).
Proof. exact C14_search_exact_proof. Qed.
Print Assumptions C14_search_exact.

Definition exOps : list trie_op := [Insert [2;1]; InsertBatch [[3;1;2]; [2]]; Insert [1;4]; Insert []].
Example exOps_sets : sets_only exOps.
Proof.
  intros s H. apply (bool_decide_unpack (NoDup s)). revert s H. apply Forall_forall.
  by_compute.
Qed.
Definition exT : node := match run_trie exOps with Ok t => t | Err _ => trie_empty end.
Example C14_ex : run_trie exOps = Ok exT /\
  search exT [3;2;1] = Ok true /\ search exT [1;2] = Ok true /\ search exT [1;3] = Ok false /\
  search exT [] = Ok false.
Proof. vm_compute. done. Qed.

(** C15. When the history ends with insert_batch, subset search returns exactly the sorted tuples of the
    inserted non-empty sets contained in the query. *)
Theorem C15_subsets_exact : forall (ops : list trie_op) (ss : list (list Z)) (q : list Z),
  let h := ops ++ [InsertBatch ss] in
  sets_only h -> NoDup q ->
  exists t, run_trie h = Ok t /\ forall x, x ∈ search_subsets t q <->
    exists s tup, s ∈ inserted h /\ s <> [] /\ (forall y, y ∈ s -> y ∈ q) /\
      sorted_tuple_of s tup /\ x = Some tup.
Proof. exact C15_subsets_exact_proof. Qed.
Print Assumptions C15_subsets_exact.

(** C16. When the history ends with insert_batch, superset search for a non-empty query returns exactly the
    sorted tuples of the inserted sets containing the query; an empty query raises ValueError on any trie. *)
Theorem C16_supersets_exact : forall (ops : list trie_op) (ss : list (list Z)) (q : list Z),
  let h := ops ++ [InsertBatch ss] in
  sets_only h -> NoDup q ->
  exists t, run_trie h = Ok t /\
    (q = [] -> search_supersets t q = Err ValueError) /\
    (q <> [] -> exists r, search_supersets t q = Ok r /\ forall x, x ∈ r <->
      exists s tup, s ∈ inserted h /\ (forall y, y ∈ q -> y ∈ s) /\ sorted_tuple_of s tup /\ x = Some tup).
Proof. exact C16_supersets_exact_proof. Qed.
Print Assumptions C16_supersets_exact.

(** C17. The exact answers after an arbitrary history: a match already present at the last insert_batch is
    reported by content, and None is reported iff some matching set was inserted only after it.  So C15
    and C16 do need their final insert_batch. *)
Theorem C17_unpopulated_as_None : forall (ops : list trie_op) (q : list Z),
  sets_only ops -> NoDup q ->
  exists t, run_trie ops = Ok t /\
    (forall x, x ∈ search_subsets t q <->
      (exists s tup, batched ops s /\ s <> [] /\ (forall y, y ∈ s -> y ∈ q) /\
         sorted_tuple_of s tup /\ x = Some tup) \/
      (x = None /\ exists s, s ∈ inserted ops /\ s <> [] /\ (forall y, y ∈ s -> y ∈ q) /\
         ~ exists s', batched ops s' /\ same_set s s')) /\
    (q <> [] -> exists r, search_supersets t q = Ok r /\ forall x, x ∈ r <->
      (exists s tup, batched ops s /\ (forall y, y ∈ q -> y ∈ s) /\ sorted_tuple_of s tup /\ x = Some tup) \/
      (x = None /\ exists s, s ∈ inserted ops /\ (forall y, y ∈ q -> y ∈ s) /\
         ~ exists s', batched ops s' /\ same_set s s')).
Proof. exact C17_unpopulated_as_None_proof. Qed.
Print Assumptions C17_unpopulated_as_None.

(** C17, the consequence spelled out: a fresh set inserted last is never reported by its content. *)
Theorem C17_late_insert_lost : forall (ops : list trie_op) (s q tup : list Z),
  sets_only (ops ++ [Insert s]) -> s <> [] -> NoDup q -> (forall y, y ∈ s -> y ∈ q) ->
  (~ exists s', s' ∈ inserted ops /\ same_set s s') -> sorted_tuple_of s tup ->
  exists t, run_trie (ops ++ [Insert s]) = Ok t /\
    None ∈ search_subsets t q /\ Some tup ∉ search_subsets t q.
Proof. exact C17_late_insert_lost_proof. Qed.
Print Assumptions C17_late_insert_lost.

Example C15_ex : exists t, run_trie [Insert [4;1]; InsertBatch [[2;1]; [3]; [1;2;4]]] = Ok t /\
  search_subsets t [4;2;1] = {[ Some [1;4]; Some [1;2]; Some [1;2;4] ]} /\
  search_supersets t [2] = Ok {[ Some [1;2]; Some [1;2;4] ]}.
Proof. eexists. split; [vm_compute; reflexivity|]. split; by_compute. Qed.
Example C17_ex : search_subsets exT [1;4;2] = {[ Some [1;2]; Some [2]; None ]} /\
  search_supersets exT [1] = Ok {[ Some [1;2]; Some [1;2;3]; None ]}.
Proof. split; by_compute. Qed.

(** C18, binary search: on a strictly increasing list binary_search returns the index of x, or -1 when x is
    absent, and always terminates. *)
Theorem C18_binary_search : forall (arr : list Z) (x : Z),
  StronglySorted Z.lt arr ->
  exists p, binary_search arr x = Ok p /\
    (x ∈ arr -> 0 <= p < zlen arr /\ arr !! Z.to_nat p = Some x) /\ (x ∉ arr -> p = -1).
Proof. exact C18_binary_search_proof. Qed.
Print Assumptions C18_binary_search.

(** C18, the two node classes: starting from a node without children, any sequence of add_child calls gives
    the same outcome for each call on Node and NodeV2, and afterwards has_child and get_child agree on
    every item (same child object or KeyError on both). *)
Theorem C18_nodes_agree : forall (C : Type) (item : option Z) (calls : list (Z * C)),
  let r1 := add_children1 (fnode_new item) calls in
  let r2 := add_children2 (fnode2_new item) calls in
  snd r1 = snd r2 /\
  forall x, has_child1 (fst r1) x = has_child2 (fst r2) x /\ get_child1 (fst r1) x = get_child2 (fst r2) x.
Proof. exact C18_nodes_agree_proof. Qed.
Print Assumptions C18_nodes_agree.

(** C18, what both answer: a child is found iff some call for its item succeeded; a call succeeds iff the
    item is larger than the node's own item and was not added before. *)
Theorem C18_has_child_exact : forall (C : Type) (item : option Z) (calls : list (Z * C)) (x : Z),
  let n := fst (add_children2 (fnode2_new item) calls) in
  has_child2 n x = Ok true <->
  x ∈ map fst calls /\ (forall i, item = Some i -> i < x).
Proof. exact C18_has_child_exact_proof. Qed.
Print Assumptions C18_has_child_exact.

Example C18_ex : binary_search [1;3;4;9] 4 = Ok 2 /\ binary_search [1;3;4;9] 5 = Ok (-1) /\
  let r := add_children1 (fnode_new (Some 2)) [(5, 100); (3, 101); (5, 102); (1, 103); (4, 104)] in
  snd r = [Ok tt; Ok tt; Err ValueError; Err ValueError; Ok tt] /\
  fn_items (fst r) = [3;4;5] /\ get_child1 (fst r) 5 = Ok 100 /\ get_child1 (fst r) 6 = Err KeyError.
Proof. vm_compute. done. Qed.
