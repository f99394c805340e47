(** Properties of the sample-assignment strategies (C19-C20). *)
From Verif.Model Require Import PyBase Sparse Utils Trie Assign.
From Verif.Spec Require Import SMatrix SAssign.
Open Scope Z_scope.
From Verif.Proofs Require Import T_Assign.
Open Scope Z_scope.

(** C19. new_rows has one entry per row; entry i lists, in increasing order (so once each), exactly the ids of
    the samples all of whose items are non-zero in row i.  Samples may repeat or be empty; [ord] is any set
    iteration order.  Items must be column numbers. *)
Theorem C19_pretti_exact : forall (ord : gset Z -> list Z) (space : list (gset Z)) (Y : csr),
  set_order ord -> wf_cmat (csr_mat Y) = true ->
  (forall s a, s ∈ space -> a ∈ s -> 0 <= a < csr_cols Y) ->
  exists rows, pretti_new_rows ord space Y = Ok rows /\ zlen rows = csr_rows Y /\
    forall i row, 0 <= i -> rows !! Z.to_nat i = Some row ->
      StronglySorted Z.lt row /\
      forall k, k ∈ row <-> contained_id space (nonzero_at (csr_mat Y) i) k.
Proof. exact C19_pretti_exact_proof. Qed.
Print Assumptions C19_pretti_exact.

(** C19, the boundary of its range hypothesis: an item at or beyond the number of columns makes the
    assignment raise IndexError, whatever the other samples are. *)
Theorem C19_pretti_out_of_range : forall (ord : gset Z -> list Z) (space : list (gset Z)) (Y : csr),
  set_order ord -> wf_cmat (csr_mat Y) = true ->
  (forall s a, s ∈ space -> a ∈ s -> 0 <= a) ->
  (exists s a, s ∈ space /\ a ∈ s /\ csr_cols Y <= a) ->
  pretti_new_rows ord space Y = Err IndexError.
Proof. exact C19_pretti_out_of_range_proof. Qed.
Print Assumptions C19_pretti_out_of_range.

(** C20, what the set-trie strategy computes on any sample space: row i gets, once each, the ids of the
    non-empty samples stored in row i that have no later equal copy.  So it drops empty samples and all but
    the last of equal samples, which the other two strategies keep. *)
Theorem C20_trie_exact : forall (ord : gset Z -> list Z) (hord : hits -> list (option (list Z)))
    (space : list (gset Z)) (Y : csr),
  set_order ord -> (forall h, hord h ≡ₚ elements h) -> wf_cmat (csr_mat Y) = true ->
  exists rows, trie_new_rows ord hord space Y = Ok rows /\ zlen rows = csr_rows Y /\
    forall i row, 0 <= i -> rows !! Z.to_nat i = Some row ->
      NoDup row /\
      forall k, k ∈ row <->
        contained_id space (csr_has Y i) k /\
        exists s, space !! Z.to_nat k = Some s /\ s <> ∅ /\ forall k', k < k' -> space !! Z.to_nat k' <> Some s.
Proof. exact C20_trie_exact_proof. Qed.
Print Assumptions C20_trie_exact.

(** C20. On a duplicate-free sample space of non-empty sets over the columns and a matrix without explicit
    zeros, the three strategies succeed and give every row the same ids, each once (for naive and PRETTI
    even in the same order). *)
Theorem C20_strategies_agree : forall (ord : gset Z -> list Z) (hord : hits -> list (option (list Z)))
    (space : list (gset Z)) (Y : csr),
  set_order ord -> (forall h, hord h ≡ₚ elements h) ->
  wf_cmat (csr_mat Y) = true -> no_explicit_zeros (csr_mat Y) ->
  NoDup space -> ∅ ∉ space -> (forall s a, s ∈ space -> a ∈ s -> 0 <= a < csr_cols Y) ->
  exists rows trows, naive_new_rows space Y = Ok rows /\ pretti_new_rows ord space Y = Ok rows /\
    trie_new_rows ord hord space Y = Ok trows /\
    Forall2 (fun row trow => row ≡ₚ trow /\ NoDup row) rows trows.
Proof. exact C20_strategies_agree_proof. Qed.
Print Assumptions C20_strategies_agree.

(** rows {0,2}, {}, {0,1,2} with an explicit zero at (1,1) *)
Definition exY : csr := Csr (CMat 3 3 [0;2;3;6] [0;2;1;0;1;2] [1;1;0;1;1;1]).
Definition exSpace : list (gset Z) := [{[0;2]}; ∅; {[1]}; {[0;2]}].
Example C19_ex : pretti_new_rows elements exSpace exY = Ok [[0;1;3]; [1]; [0;1;2;3]] /\
  naive_new_rows exSpace exY = Ok [[0;1;3]; [1;2]; [0;1;2;3]] /\
  trie_new_rows elements elements exSpace exY = Ok [[3]; [2]; [3;2]].
Proof. split; [|split]; by_compute. Qed.
Example C19_ex_hyps : wf_cmat (csr_mat exY) = true /\
  forall s a, s ∈ exSpace -> a ∈ s -> 0 <= a < csr_cols exY.
Proof.
  split; [done|]. intros s a Hs. revert a.
  assert (Forall (fun s : gset Z => set_Forall (fun a => 0 <= a < 3) s) exSpace) as H by by_compute.
  rewrite Forall_forall in H. exact (H s Hs).
Qed.
Example C19_ex_bad : pretti_new_rows elements [{[0]}; {[1;3]}] exY = Err IndexError.
Proof. by_compute. Qed.
Definition exY2 : csr := Csr (CMat 3 3 [0;2;2;5] [0;2;0;1;2] [1;1;1;1;1]).
Definition exSpace2 : list (gset Z) := [{[0;2]}; {[1]}; {[0]}].
Example C20_ex : naive_new_rows exSpace2 exY2 = Ok [[0;2]; []; [0;1;2]] /\
  pretti_new_rows elements exSpace2 exY2 = Ok [[0;2]; []; [0;1;2]] /\
  NoDup exSpace2 /\ ∅ ∉ exSpace2.
Proof. split_and!; by_compute. Qed.
